(** Packing and unpacking of hints. *)
From Verif Require Export MlDsaCodec MlDsaSpec.
From Coq Require Import Sorting.Sorted.
Local Open Scope Z_scope.

(** Positions of the nonzero entries of a row. *)
Definition poss (js : list nat) (r : list Z) : list nat := filter (fun j => negb (nthz j r =? 0)) js.
Definition positions (r : list Z) : list nat := poss (seq 0 (length r)) r.
Definition zs (l : list nat) : list Z := map Z.of_nat l.

(** Running counts after each row. *)
Fixpoint cums (idx : nat) (h : list (list Z)) : list nat :=
  match h with [] => [] | r :: h' => let i := (idx + length (positions r))%nat in i :: cums i h' end.
Fixpoint total (h : list (list Z)) : nat :=
  match h with [] => 0%nat | r :: h' => (length (positions r) + total h')%nat end.
Fixpoint all_positions (h : list (list Z)) : list nat :=
  match h with [] => [] | r :: h' => positions r ++ all_positions h' end.

Lemma all_positions_length h : length (all_positions h) = total h.
Proof. induction h; simpl; [reflexivity|]. rewrite app_length, IHh. reflexivity. Qed.
Lemma cums_length h : forall idx, length (cums idx h) = length h.
Proof. induction h; intro idx; simpl; [reflexivity|]. rewrite IHh. reflexivity. Qed.

Definition encoding (p : params) (h : list (list Z)) : bytes :=
  zs (all_positions h) ++ repeat 0 (omega p - total h) ++ zs (cums 0 h).

(** Strictly increasing lists with the same members are equal. *)
Lemma sorted_ext l1 : forall l2, StronglySorted lt l1 -> StronglySorted lt l2 ->
  (forall x, In x l1 <-> In x l2) -> l1 = l2.
Proof.
  induction l1 as [|a l1 IH]; intros [|b l2] S1 S2 E.
  - reflexivity.
  - destruct (E b) as [_ X]. destruct (X (or_introl eq_refl)).
  - destruct (E a) as [X _]. destruct (X (or_introl eq_refl)).
  - inversion_clear S1 as [|? ? T1 F1]. inversion_clear S2 as [|? ? T2 F2].
    rewrite Forall_forall in F1, F2.
    assert (a = b).
    { destruct (E a) as [X _]. destruct (E b) as [_ Y].
      destruct (X (or_introl eq_refl)) as [->|Ha]; [reflexivity|].
      destruct (Y (or_introl eq_refl)) as [->|Hb]; [reflexivity|].
      specialize (F1 _ Hb). specialize (F2 _ Ha). lia. }
    subst b. f_equal. apply IH; [exact T1|exact T2|]. intro x. split; intro Hx.
    + destruct (E x) as [X _]. destruct (X (or_intror Hx)) as [->|]; [|assumption]. specialize (F1 _ Hx). lia.
    + destruct (E x) as [_ X]. destruct (X (or_intror Hx)) as [->|]; [|assumption]. specialize (F2 _ Hx). lia.
Qed.

Lemma seq_sorted n : forall s, StronglySorted lt (seq s n).
Proof.
  induction n; intro s; simpl; constructor; auto. apply Forall_forall. intros x Hx. apply in_seq in Hx. lia.
Qed.
Lemma filter_sorted (P : nat -> bool) l : StronglySorted lt l -> StronglySorted lt (filter P l).
Proof.
  induction 1 as [|a l S IH F]; simpl; [constructor|]. destruct (P a); [|exact IH].
  constructor; [exact IH|]. apply Forall_forall. intros x Hx. apply filter_In in Hx as [Hx _].
  rewrite Forall_forall in F. auto.
Qed.

Lemma positions_in r j : In j (positions r) <-> (j < length r)%nat /\ nthz j r <> 0.
Proof.
  unfold positions, poss. rewrite filter_In, in_seq, negb_true_iff, Z.eqb_neq.
  split; intros [H1 H2]; (split; [lia|exact H2]).
Qed.

Lemma filter_length_positions r :
  length (positions r) = length (filter (fun x => negb (x =? 0)) r).
Proof.
  unfold positions, poss.
  assert (K : forall s r', (forall j, (j < length r)%nat -> nthz (s + j) r' = nthz j r) ->
     length (filter (fun j => negb (nthz j r' =? 0)) (seq s (length r))) = length (filter (fun x => negb (x =? 0)) r)).
  { induction r as [|x r IH]; intros s r' H; [reflexivity|]. cbn [length seq filter].
    pose proof (H 0%nat ltac:(simpl; lia)) as H0. rewrite Nat.add_0_r in H0. rewrite H0. change (nthz 0 (x :: r)) with x.
    assert (E : length (filter (fun j => negb (nthz j r' =? 0)) (seq (S s) (length r))) = length (filter (fun x => negb (x =? 0)) r)).
    { apply IH. intros j Hj. specialize (H (S j) ltac:(simpl; lia)). rewrite Nat.add_succ_r in H. exact H. }
    destruct (negb (x =? 0)); cbn [length]; rewrite E; reflexivity. }
  apply (K 0%nat r). reflexivity.
Qed.

Lemma positions_poss r : length r = 256%nat -> poss (seq 0 256) r = positions r.
Proof. intros <-. reflexivity. Qed.
Lemma positions_sorted r : StronglySorted lt (positions r).
Proof. apply filter_sorted, seq_sorted. Qed.
Global Opaque positions.

(** * The row loop of hint_bit_unpack *)
Fixpoint row_list (prev : option Z) (l : list Z) (hi : list Z) : option (list Z) :=
  match l with
  | [] => Some hi
  | x :: r =>
      match prev with
      | Some y => if y >=? x then None else row_list (Some x) r (upd hi (Z.to_nat x) 1)
      | None => row_list (Some x) r (upd hi (Z.to_nat x) 1)
      end
  end.

Lemma firstn_skipn_cons n idx (y : list Z) : (idx < length y)%nat ->
  firstn (S n) (skipn idx y) = nthz idx y :: firstn n (skipn (S idx) y).
Proof. intro H. rewrite (skipn_cons_nth idx y H). reflexivity. Qed.

Lemma unpack_row_list y : forall n idx first hi, (first <= idx)%nat -> (idx + n <= length y)%nat ->
  hint_unpack_row n idx first y hi =
  row_list (if (first <? idx)%nat then Some (nthz (idx - 1) y) else None) (firstn n (skipn idx y)) hi.
Proof.
  induction n as [|n IH]; intros idx first hi H1 H2; [reflexivity|].
  rewrite firstn_skipn_cons by lia. cbn [hint_unpack_row row_list].
  rewrite IH by lia. destruct (Nat.ltb_spec first (S idx)); [|lia].
  replace (S idx - 1)%nat with idx by lia.
  destruct (Nat.ltb_spec first idx); cbn [andb]; reflexivity.
Qed.

(** [row_list] accepts exactly the increasing lists and sets their positions. *)
Definition set_all (l : list Z) (hi : list Z) : list Z := fold_left (fun h x => upd h (Z.to_nat x) 1) l hi.

Lemma row_list_inv l : forall prev hi h, row_list prev l hi = Some h ->
  h = set_all l hi /\ StronglySorted Z.lt l /\ (forall y, prev = Some y -> Forall (fun x => y < x) l).
Proof.
  induction l as [|x l IH]; intros prev hi h E; cbn [row_list] in E.
  - injection E as <-. split; [reflexivity|]. split; constructor.
  - assert (E' : row_list (Some x) l (upd hi (Z.to_nat x) 1) = Some h /\ (forall y, prev = Some y -> y < x)).
    { destruct prev as [y|].
      - destruct (y >=? x) eqn:C; [discriminate|]. split; [exact E|]. intros y' [= <-].
        rewrite Z.geb_leb in C. apply Z.leb_gt in C. exact C.
      - split; [exact E|]. discriminate. }
    destruct E' as [E1 E2]. destruct (IH _ _ _ E1) as (A & B & C).
    specialize (C x eq_refl). split; [exact A|]. split.
    + constructor; assumption.
    + intros y Hy. specialize (E2 y Hy). constructor; [exact E2|].
      eapply Forall_impl; [|exact C]. cbv beta. intros; lia.
Qed.

Lemma row_list_ok l : forall prev hi, StronglySorted Z.lt l -> (forall y, prev = Some y -> Forall (fun x => y < x) l) ->
  row_list prev l hi = Some (set_all l hi).
Proof.
  induction l as [|x l IH]; intros prev hi S H; [reflexivity|].
  inversion_clear S as [|? ? S' F]. cbn [row_list].
  assert (X : row_list (Some x) l (upd hi (Z.to_nat x) 1) = Some (set_all l (upd hi (Z.to_nat x) 1))).
  { apply IH; [exact S'|]. intros y [= <-]. exact F. }
  destruct prev as [y|]; [|exact X].
  specialize (H y eq_refl). inversion_clear H as [|? ? Hx _].
  destruct (y >=? x) eqn:C; [|exact X]. rewrite Z.geb_leb in C. apply Z.leb_le in C. lia.
Qed.

Lemma set_all_length l : forall hi, length (set_all l hi) = length hi.
Proof. induction l as [|x l IH]; intro hi; [reflexivity|]. cbn [set_all fold_left]. unfold set_all in IH. rewrite IH. apply upd_length. Qed.

Lemma set_all_nth l : forall hi j, Forall (fun x => 0 <= x < Z.of_nat (length hi)) l ->
  nthz j (set_all l hi) = if existsb (fun x => Z.of_nat j =? x) l then 1 else nthz j hi.
Proof.
  induction l as [|x l IH]; intros hi j F; [reflexivity|].
  inversion_clear F as [|? ? Hx Fl]. unfold set_all in *. cbn [fold_left existsb].
  rewrite IH by (rewrite upd_length; exact Fl). rewrite nthz_upd by lia.
  destruct (Z.eqb_spec (Z.of_nat j) x) as [E|E]; destruct (Nat.eqb_spec j (Z.to_nat x)) as [E'|E']; try lia; cbn [orb].
  - destruct (existsb _ l); reflexivity.
  - reflexivity.
Qed.

Lemma nthz_repeat0 j n : nthz j (repeat 0 n) = 0.
Proof. unfold nthz. revert j. induction n; intros [|j]; simpl; auto. Qed.

Lemma zs_app a b : zs (a ++ b) = zs a ++ zs b. Proof. apply map_app. Qed.
Lemma zs_cons x l : zs (x :: l) = Z.of_nat x :: zs l. Proof. reflexivity. Qed.
Lemma zs_length l : length (zs l) = length l. Proof. apply map_length. Qed.

Lemma zs_in l x : In x (zs l) <-> exists j, In j l /\ x = Z.of_nat j.
Proof. unfold zs. rewrite in_map_iff. split; intros (j & A & B); exists j; auto. Qed.

Lemma zs_sorted l : StronglySorted lt l -> StronglySorted Z.lt (zs l).
Proof.
  induction 1 as [|a l S IH F]; simpl; constructor; [exact IH|].
  apply Forall_map. eapply Forall_impl; [|exact F]. cbv beta. intros; lia.
Qed.

Lemma existsb_zs j l : existsb (fun x => Z.of_nat j =? x) (zs l) = existsb (Nat.eqb j) l.
Proof.
  induction l as [|a l IH]; [reflexivity|]. cbn [zs map existsb]. unfold zs in IH. rewrite IH. f_equal.
  destruct (Z.eqb_spec (Z.of_nat j) (Z.of_nat a)), (Nat.eqb_spec j a); try lia; reflexivity.
Qed.

Definition bit_row (r : list Z) : Prop := length r = 256%nat /\ Forall (fun x => x = 0 \/ x = 1) r.

Lemma bit_row_nth r j : bit_row r -> nthz j r = 0 \/ nthz j r = 1.
Proof.
  intros [L F]. destruct (Nat.lt_ge_cases j (length r)).
  - rewrite Forall_forall in F. apply F. apply nth_In. assumption.
  - left. apply nthz_overflow. assumption.
Qed.

(** Reading the positions of a row of bits rebuilds the row. *)
Lemma set_positions r : bit_row r -> set_all (zs (positions r)) (repeat 0 256) = r.
Proof.
  intro B. destruct B as [L F]. apply nthz_ext.
  - rewrite set_all_length, repeat_length. auto.
  - intros j Hj. rewrite set_all_length, repeat_length in Hj.
    rewrite set_all_nth, nthz_repeat0, existsb_zs.
    + pose proof (bit_row_nth r j (conj L F)) as D.
      destruct (existsb (Nat.eqb j) (positions r)) eqn:E.
      * apply existsb_exists in E as (x & Hx & Ex). apply Nat.eqb_eq in Ex. subst x. apply positions_in in Hx. lia.
      * assert (X : ~ In j (positions r)).
        { intro X. assert (existsb (Nat.eqb j) (positions r) = true) by (apply existsb_exists; exists j; split; [exact X|apply Nat.eqb_refl]). congruence. }
        rewrite positions_in in X. lia.
    + rewrite repeat_length. apply Forall_map, Forall_forall. intros x Hx. apply positions_in in Hx. lia.
Qed.

Lemma row_list_positions r : bit_row r -> row_list None (zs (positions r)) (repeat 0 256) = Some r.
Proof.
  intro B. rewrite row_list_ok; [f_equal; apply set_positions; exact B| |discriminate].
  apply zs_sorted, positions_sorted.
Qed.

(** An accepted row has the read positions. *)
Lemma row_list_accept l h : is_bytes l = true -> row_list None l (repeat 0 256) = Some h ->
  bit_row h /\ zs (positions h) = l.
Proof.
  intros B E. apply row_list_inv in E as (-> & S & _).
  assert (F : Forall (fun x => 0 <= x < 256) l).
  { apply Forall_forall. intros x Hx. unfold is_bytes in B. rewrite forallb_forall in B. specialize (B x Hx).
    unfold is_byte in B. apply andb_true_iff in B as [B1 B2]. apply Z.leb_le in B1. apply Z.ltb_lt in B2. lia. }
  assert (F' : Forall (fun x => 0 <= x < Z.of_nat (length (repeat 0 256))) l) by (rewrite repeat_length; exact F).
  assert (Nth : forall j, nthz j (set_all l (repeat 0 256)) = if existsb (fun x => Z.of_nat j =? x) l then 1 else 0).
  { intro j. rewrite set_all_nth by exact F'. rewrite nthz_repeat0. reflexivity. }
  split.
  - split; [rewrite set_all_length, repeat_length; reflexivity|]. apply Forall_forall. intros x Hx.
    apply (In_nth _ _ 0) in Hx as (j & _ & <-). pose proof (Nth j) as N. unfold nthz in N. rewrite N.
    destruct (existsb _ l); auto.
  - assert (Q : positions (set_all l (repeat 0 256)) = map Z.to_nat l).
    { apply sorted_ext.
      - apply positions_sorted.
      - clear - S F. induction S as [|a l S IH Fa]; simpl; [constructor|].
        inversion_clear F as [|? ? Ha Fl]. constructor; [apply IH; exact Fl|].
        apply Forall_map. apply Forall_forall. intros x Hx. rewrite Forall_forall in Fa, Fl.
        specialize (Fa x Hx). specialize (Fl x Hx). lia.
      - intro j. rewrite positions_in, Nth, in_map_iff. rewrite Forall_forall in F. split.
        + intros [_ H]. destruct (existsb _ l) eqn:X; [|lia]. apply existsb_exists in X as (x & Hx & Ex).
          apply Z.eqb_eq in Ex. exists x. split; [lia|exact Hx].
        + intros (x & <- & Hx). pose proof (F x Hx). split; [rewrite set_all_length, repeat_length; lia|].
          destruct (existsb _ l) eqn:X; [lia|].
          assert (Y : existsb (fun y => Z.of_nat (Z.to_nat x) =? y) l = true).
          { apply existsb_exists. exists x. split; [exact Hx|]. apply Z.eqb_eq. lia. }
          congruence. }
    rewrite Q. unfold zs. rewrite map_map. rewrite <- (map_id l) at 2. apply map_ext_in.
    intros x Hx. rewrite Forall_forall in F. specialize (F x Hx). lia.
Qed.

(** * The loop over the rows of hint_bit_unpack *)
Fixpoint rows_list (om : nat) (cs : list Z) (idx : nat) (a : bytes) : option (list (list Z)) :=
  match cs with
  | [] => if forallb (fun x => x =? 0) (skipn idx a) then Some [] else None
  | b :: r =>
      if (b <? Z.of_nat idx) || (b >? Z.of_nat om) then None
      else match row_list None (firstn (Z.to_nat b - idx) (skipn idx a)) (repeat 0 256) with
           | None => None
           | Some hi => match rows_list om r (Z.to_nat b) a with None => None | Some hs => Some (hi :: hs) end
           end
  end.

Lemma forallb_map {A B} (f : A -> B) P l : forallb P (map f l) = forallb (fun x => P (f x)) l.
Proof. induction l; simpl; [reflexivity|]. rewrite IHl. reflexivity. Qed.

Lemma tail_seq (a cs : list Z) idx : (idx <= length a)%nat ->
  map (fun i => nthz i (a ++ cs)) (seq idx (length a - idx)) = skipn idx a.
Proof.
  intro H. apply (nth_ext _ _ 0 0); rewrite map_length, seq_length.
  - rewrite skipn_length. reflexivity.
  - intros n Hn. rewrite (nth_indep _ 0 (nthz 0 (a ++ cs))) by (rewrite map_length, seq_length; exact Hn).
    rewrite (map_nth (fun i => nthz i (a ++ cs))), seq_nth by exact Hn.
    unfold nthz. rewrite app_nth1 by lia.
    rewrite <- (firstn_skipn idx a) at 1. rewrite app_nth2; rewrite firstn_length_le by lia; [|lia]. f_equal. lia.
Qed.

Lemma firstn_skipn_app_l {A} n m (a b : list A) : (n + m <= length a)%nat ->
  firstn n (skipn m (a ++ b)) = firstn n (skipn m a).
Proof.
  intro H. rewrite skipn_app, firstn_app, skipn_length.
  replace (n - (length a - m))%nat with 0%nat by lia. rewrite firstn_O, app_nil_r. reflexivity.
Qed.

Lemma unpack_rows_list p a : length a = omega p -> forall cs1 cs i idx, length cs1 = i -> (idx <= omega p)%nat ->
  hint_unpack_rows p (seq i (length cs)) idx (a ++ cs1 ++ cs) = Ok (rows_list (omega p) cs idx a).
Proof.
  intros La cs1 cs. revert cs1. induction cs as [|b cs IH]; intros cs1 i idx Li Hidx.
  - cbn [length seq hint_unpack_rows rows_list].
    rewrite <- (tail_seq a (cs1 ++ []) idx) by lia. rewrite forallb_map, La. reflexivity.
  - cbn [length seq hint_unpack_rows rows_list]. rewrite !app_length. cbn [length].
    destruct (Nat.leb_spec (length a + (length cs1 + S (length cs))) (omega p + i)); [lia|].
    assert (Nb : nthz (omega p + i) (a ++ cs1 ++ b :: cs) = b).
    { unfold nthz. rewrite app_nth2 by lia. rewrite app_nth2 by lia.
      replace (omega p + i - length a - length cs1)%nat with 0%nat by lia. reflexivity. }
    rewrite Nb. destruct ((b <? Z.of_nat idx) || (b >? Z.of_nat (omega p))) eqn:C; [reflexivity|].
    apply orb_false_iff in C as [C1 C2]. apply Z.ltb_ge in C1. rewrite Z.gtb_ltb in C2. apply Z.ltb_ge in C2.
    rewrite unpack_row_list, Nat.ltb_irrefl, firstn_skipn_app_l by (rewrite ?app_length; cbn [length]; lia).
    destruct (row_list None _ _) as [hi|]; [|reflexivity].
    replace (a ++ cs1 ++ b :: cs) with (a ++ (cs1 ++ [b]) ++ cs) by (rewrite <- app_assoc; reflexivity).
    rewrite (IH (cs1 ++ [b]) (S i)) by (rewrite ?app_length; cbn [length]; lia).
    cbn [bind]. reflexivity.
Qed.

Lemma unpack_list p a cs : length a = omega p -> length cs = k p ->
  hint_bit_unpack p (a ++ cs) = Ok (rows_list (omega p) cs 0 a).
Proof.
  intros La Lc. unfold hint_bit_unpack. rewrite <- Lc.
  apply (unpack_rows_list p a La [] cs 0%nat 0%nat eq_refl). lia.
Qed.

(** * Unpacking an encoding *)
Lemma rows_list_encoding om : forall h pre, Forall bit_row h -> (length pre + total h <= om)%nat ->
  rows_list om (zs (cums (length pre) h)) (length pre)
            (pre ++ zs (all_positions h) ++ repeat 0 (om - (length pre + total h))) = Some h.
Proof.
  induction h as [|r h IH]; intros pre F H.
  - cbn [cums zs map rows_list all_positions app total].
    rewrite skipn_app, skipn_all, Nat.sub_diag. cbn [app skipn].
    assert (X : forall n, forallb (fun x => x =? 0) (repeat 0 n) = true) by (induction n; simpl; auto).
    rewrite X. reflexivity.
  - inversion_clear F as [|? ? Fr Fh]. cbn [cums total all_positions] in *. rewrite zs_cons. cbn [rows_list].
    set (n := length (positions r)) in *.
    destruct (Z.ltb_spec (Z.of_nat (length pre + n)) (Z.of_nat (length pre))); [lia|].
    rewrite Z.gtb_ltb. destruct (Z.ltb_spec (Z.of_nat om) (Z.of_nat (length pre + n))); [lia|]. cbn [orb].
    rewrite Nat2Z.id. replace (length pre + n - length pre)%nat with n by lia.
    rewrite skipn_app, skipn_all, Nat.sub_diag. cbn [app skipn].
    rewrite zs_app. assert (Ln : length (zs (positions r)) = n) by apply zs_length.
    rewrite <- app_assoc. rewrite <- Ln at 1. rewrite firstn_app, Nat.sub_diag, firstn_all, firstn_O, app_nil_r.
    rewrite row_list_positions by exact Fr.
    specialize (IH (pre ++ zs (positions r)) Fh). rewrite app_length, Ln in IH.
    rewrite <- app_assoc in IH.
    replace (length pre + (n + total h))%nat with (length pre + n + total h)%nat by lia.
    clearbody n. rewrite IH by lia. reflexivity.
Qed.

Lemma total_nonzeros h : Forall (fun r => length r = 256%nat) h -> total h = nonzeros h.
Proof.
  unfold nonzeros. induction 1 as [|r h Hr _ IH]; [reflexivity|].
  cbn [total concat]. rewrite filter_app, app_length, IH, filter_length_positions. reflexivity.
Qed.

(** * hint_bit_pack computes the encoding *)
Lemma upd_app (a : list Z) x y b : upd (a ++ x :: b) (length a) y = a ++ y :: b.
Proof. induction a; simpl; [reflexivity|]. rewrite IHa. reflexivity. Qed.

Lemma repeat_S_app {A} (x : A) n m : repeat x (S n + m) = x :: repeat x (n + m).
Proof. reflexivity. Qed.

Lemma pack_row_ok hi : length hi = 256%nat -> forall js pre n tl, (forall j, In j js -> (j < 256)%nat) ->
  hint_pack_row js hi (length pre) (pre ++ repeat 0 (length (poss js hi) + n) ++ tl) =
  Ok ((length pre + length (poss js hi))%nat, pre ++ zs (poss js hi) ++ repeat 0 n ++ tl).
Proof.
  intro L. induction js as [|j js IH]; intros pre n tl H.
  - cbn [hint_pack_row poss filter length zs map]. rewrite Nat.add_0_r. reflexivity.
  - cbn [hint_pack_row poss filter]. destruct (Nat.leb_spec (length hi) j) as [X|_].
    { specialize (H j (or_introl eq_refl)). lia. }
    fold (poss js hi). destruct (nthz j hi =? 0); cbn [negb].
    + apply IH. intros; apply H; right; assumption.
    + rewrite zs_cons. cbn [length]. rewrite repeat_S_app.
      rewrite !app_length. cbn [length app].
      match goal with |- context [(?a <=? length pre)%nat] => destruct (Nat.leb_spec a (length pre)) as [X|_]; [lia|] end.
      rewrite upd_app.
      specialize (IH (pre ++ [Z.of_nat j]) n tl). rewrite app_length, <- !app_assoc in IH. cbn [length app] in IH.
      replace (S (length pre)) with (length pre + 1)%nat by lia. rewrite IH by (intros; apply H; right; assumption).
      replace (length pre + 1 + length (poss js hi))%nat with (length pre + S (length (poss js hi)))%nat by lia. reflexivity.
Qed.

Lemma pack_rows_ok p : (omega p <= 255)%nat -> forall h2 h1 i, length h1 = i ->
  Forall (fun r => length r = 256%nat) h2 -> (total h1 + total h2 <= omega p)%nat ->
  hint_pack_rows p (seq i (length h2)) (h1 ++ h2) (total h1)
    (zs (all_positions h1) ++ repeat 0 (omega p - total h1) ++ zs (cums 0 h1) ++ repeat 0 (length h2)) =
  Ok (encoding p (h1 ++ h2)).
Proof.
  intro Om. induction h2 as [|r h2 IH]; intros h1 i Hi F Ht.
  - cbn [length seq hint_pack_rows repeat]. rewrite !app_nil_r. reflexivity.
  - inversion_clear F as [|? ? Fr Fh]. change (seq i (length (r :: h2))) with (i :: seq (S i) (length h2)).
    change (length (r :: h2)) with (S (length h2)). cbn [hint_pack_rows total] in *.
    rewrite nth_error_app2, Hi, Nat.sub_diag by lia. cbn [nth_error].
    set (n := length (positions r)) in *.
    pose proof (pack_row_ok r Fr (seq 0 256) (zs (all_positions h1)) (omega p - total h1 - n)
                  (zs (cums 0 h1) ++ repeat 0 (S (length h2)))) as R.
    assert (L1 : length (zs (all_positions h1)) = total h1) by (rewrite zs_length; apply all_positions_length).
    rewrite L1 in R. rewrite (positions_poss r Fr) in R. change (length (positions r)) with n in R.
    replace (n + (omega p - total h1 - n))%nat with (omega p - total h1)%nat in R by lia.
    rewrite R by (intros j Hj; apply in_seq in Hj; lia). clear R. cbn [bind].
    destruct (Nat.ltb_spec 255 (total h1 + n)) as [X|_]; [lia|].
    assert (T1 : total (h1 ++ [r]) = (total h1 + n)%nat).
    { clear. induction h1; simpl; [lia|]. rewrite IHh1. unfold n. lia. }
    assert (A1 : all_positions (h1 ++ [r]) = all_positions h1 ++ positions r).
    { clear. induction h1; simpl; [rewrite app_nil_r; reflexivity|]. rewrite IHh1, app_assoc. reflexivity. }
    assert (C1 : forall idx, cums idx (h1 ++ [r]) = cums idx h1 ++ [(idx + total h1 + n)%nat]).
    { clear. induction h1; intro idx; simpl; [rewrite Nat.add_0_r; reflexivity|]. rewrite IHh1. f_equal. f_equal. f_equal. lia. }
    specialize (IH (h1 ++ [r]) (S i)). rewrite T1, A1, C1, <- !app_assoc in IH. cbn [app] in IH.
    rewrite <- IH; clear IH; [|rewrite app_length; cbn [length]; lia|exact Fh|lia].
    f_equal. cbn [repeat].
    assert (U : upd (zs (all_positions h1) ++ zs (positions r) ++ repeat 0 (omega p - total h1 - n) ++ zs (cums 0 h1) ++ 0 :: repeat 0 (length h2))
                (omega p + i) (Z.of_nat (total h1 + n)) =
                zs (all_positions h1) ++ zs (positions r) ++ repeat 0 (omega p - total h1 - n) ++ zs (cums 0 h1) ++ Z.of_nat (total h1 + n) :: repeat 0 (length h2)).
    { rewrite !app_assoc. replace (omega p + i)%nat with (length (((zs (all_positions h1) ++ zs (positions r)) ++ repeat 0 (omega p - total h1 - n)) ++ zs (cums 0 h1))).
      - apply upd_app.
      - rewrite !app_length, L1, repeat_length, !zs_length, cums_length. change (length (positions r)) with n. lia. }
    rewrite U. rewrite !zs_app, <- !app_assoc, zs_cons. change (zs []) with (@nil Z). cbn [app]. rewrite Nat.add_0_l.
    replace (omega p - (total h1 + n))%nat with (omega p - total h1 - n)%nat by lia. reflexivity.
Qed.

Lemma hint_pack_ok p h : (omega p <= 255)%nat -> length h = k p -> Forall (fun r => length r = 256%nat) h ->
  (total h <= omega p)%nat -> hint_bit_pack p h = Ok (encoding p h).
Proof.
  intros Om L F T. unfold hint_bit_pack.
  pose proof (pack_rows_ok p Om h [] 0%nat eq_refl F T) as E. cbn [app all_positions zs map total cums] in E.
  rewrite Nat.sub_0_r, L in E. rewrite repeat_app. exact E.
Qed.

Lemma encoding_length p h : (total h <= omega p)%nat -> length (encoding p h) = (omega p + length h)%nat.
Proof.
  intro T. unfold encoding. rewrite !app_length, !zs_length, repeat_length, all_positions_length, cums_length. lia.
Qed.

Lemma cums_bound h : forall idx om, (idx + total h <= om)%nat -> Forall (fun c => (c <= om)%nat) (cums idx h).
Proof.
  induction h as [|r h IH]; intros idx om H; cbn [cums]; constructor; cbn [total] in H; [lia|]. apply IH. lia.
Qed.

Lemma is_bytes_forall l : is_bytes l = true <-> Forall (fun x => 0 <= x < 256) l.
Proof.
  unfold is_bytes. rewrite forallb_forall, Forall_forall. split; intros H x Hx; specialize (H x Hx); unfold is_byte in *.
  - apply andb_true_iff in H as [A B]. apply Z.leb_le in A. apply Z.ltb_lt in B. lia.
  - apply andb_true_iff. split; [apply Z.leb_le|apply Z.ltb_lt]; lia.
Qed.

Lemma encoding_bytes p h : Forall (fun r => length r = 256%nat) h -> (omega p <= 255)%nat -> (total h <= omega p)%nat -> is_bytes (encoding p h) = true.
Proof.
  intros F Om T. apply is_bytes_forall. unfold encoding. rewrite !Forall_app. split; [|split].
  - apply Forall_map. clear - F. induction F as [|r h Hr _ IH]; [constructor|]. cbn [all_positions]. apply Forall_app. split; [|exact IH].
    apply Forall_forall. intros x Hx. apply positions_in in Hx. lia.
  - apply Forall_forall. intros x Hx. apply repeat_spec in Hx. lia.
  - apply Forall_map. eapply Forall_impl; [|apply (cums_bound h 0 (omega p)); lia]. cbv beta. intros; lia.
Qed.

Lemma is_hint_rows n om h : is_hint n om h -> length h = n /\ Forall bit_row h /\ Forall (fun r => length r = 256%nat) h /\ (total h <= om)%nat.
Proof.
  intros (L & F & N). split; [exact L|]. split; [exact F|].
  assert (F' : Forall (fun r => length r = 256%nat) h) by (eapply Forall_impl; [|exact F]; intros a [A _]; exact A).
  split; [exact F'|]. rewrite total_nonzeros by exact F'. exact N.
Qed.

Lemma hint_roundtrip p h : (omega p <= 255)%nat -> is_hint (k p) (omega p) h -> exists y,
  hint_bit_pack p h = Ok y /\ length y = (omega p + k p)%nat /\ is_bytes y = true /\ hint_bit_unpack p y = Ok (Some h).
Proof.
  intros Om H. apply is_hint_rows in H as (L & B & F & T). exists (encoding p h).
  split; [apply hint_pack_ok; assumption|]. split; [rewrite encoding_length by exact T; congruence|].
  split; [apply encoding_bytes; assumption|].
  unfold encoding. rewrite app_assoc, unpack_list.
  - f_equal. apply (rows_list_encoding (omega p) h [] B). exact T.
  - rewrite app_length, zs_length, repeat_length, all_positions_length. lia.
  - rewrite zs_length, cums_length. exact L.
Qed.

(** * Accepted strings are encodings *)
Lemma rows_list_inv om a : length a = om -> is_bytes a = true -> forall cs idx h,
  Forall (fun x => 0 <= x) cs -> (idx <= om)%nat ->
  rows_list om cs idx a = Some h ->
  Forall bit_row h /\ length h = length cs /\ (idx + total h <= om)%nat /\
  skipn idx a = zs (all_positions h) ++ repeat 0 (om - (idx + total h)) /\ cs = zs (cums idx h).
Proof.
  intros La Ba. induction cs as [|b cs IH]; intros idx h P Hi E; cbn [rows_list] in E.
  - destruct (forallb _ (skipn idx a)) eqn:Z0; [|discriminate]. injection E as <-.
    split; [constructor|]. split; [reflexivity|]. cbn [total all_positions zs map app cums].
    split; [lia|]. split; [|reflexivity].
    rewrite Nat.add_0_r, <- La, <- skipn_length.
    clear -Z0. induction (skipn idx a) as [|x l IHl]; [reflexivity|]. cbn [forallb] in Z0. apply andb_true_iff in Z0 as [Zx Zl].
    apply Z.eqb_eq in Zx. subst x. cbn [length repeat]. f_equal. apply IHl. exact Zl.
  - inversion_clear P as [|? ? Pb Pc].
    destruct ((b <? Z.of_nat idx) || (b >? Z.of_nat om)) eqn:C; [discriminate|].
    apply orb_false_iff in C as [C1 C2]. apply Z.ltb_ge in C1. rewrite Z.gtb_ltb in C2. apply Z.ltb_ge in C2.
    destruct (row_list None (firstn (Z.to_nat b - idx) (skipn idx a)) (repeat 0 256)) as [hi|] eqn:R; [|discriminate].
    destruct (rows_list om cs (Z.to_nat b) a) as [hs|] eqn:Rs; [|discriminate]. injection E as <-.
    apply row_list_accept in R as [Br Pr].
    2:{ apply is_bytes_forall. apply is_bytes_forall in Ba. rewrite Forall_forall in Ba |- *. intros x Hx. apply Ba.
        rewrite <- (firstn_skipn idx a). apply in_or_app. right.
        rewrite <- (firstn_skipn (Z.to_nat b - idx) (skipn idx a)). apply in_or_app. left. exact Hx. }
    assert (Lr : length (positions hi) = (Z.to_nat b - idx)%nat).
    { apply (f_equal (@length Z)) in Pr. rewrite zs_length, firstn_length, skipn_length in Pr. lia. }
    destruct (IH (Z.to_nat b) hs Pc ltac:(lia) Rs) as (A1 & A2 & A3 & A4 & A5).
    split; [constructor; assumption|]. split; [cbn [length]; congruence|]. cbn [total all_positions cums].
    rewrite Lr. split; [lia|]. replace (idx + (Z.to_nat b - idx))%nat with (Z.to_nat b) by lia. split.
    + rewrite <- (firstn_skipn (Z.to_nat b - idx) (skipn idx a)) at 1. rewrite <- Pr, zs_app, <- app_assoc. f_equal.
      assert (SK : skipn (Z.to_nat b - idx) (skipn idx a) = skipn (Z.to_nat b) a).
      { clear - C1. revert idx a C1. induction idx as [|idx IHi]; intros a C1; [rewrite Nat.sub_0_r; reflexivity|].
        destruct a as [|x a]; [rewrite !skipn_nil; reflexivity|]. cbn [skipn].
        replace (Z.to_nat b) with (S (Z.to_nat b - 1)) by lia. cbn [skipn Nat.sub].
        specialize (IHi a). assert (X : Z.to_nat b = S (Z.to_nat b - 1)) by lia.
        clear IHi. generalize (Z.to_nat b - 1)%nat as m, X. intros m Hm. assert (idx <= m)%nat by lia. clear -H.
        revert m a H. induction idx as [|i IH]; intros m a H; [rewrite Nat.sub_0_r; reflexivity|].
        destruct a as [|x a]; [rewrite !skipn_nil; reflexivity|]. destruct m as [|m]; [lia|]. cbn [skipn Nat.sub]. apply IH. lia. }
      rewrite SK, A4. do 2 f_equal. lia.
    + rewrite zs_cons. f_equal; [lia|]. exact A5.
Qed.

Lemma nat_omega_split (y : bytes) n m : length y = (n + m)%nat -> exists a b, y = a ++ b /\ length a = n /\ length b = m.
Proof.
  intro L. exists (firstn n y), (skipn n y). rewrite firstn_skipn, firstn_length, skipn_length. split; [reflexivity|]. lia.
Qed.

Lemma hint_unpack_inv p y h : (omega p <= 255)%nat -> length y = (omega p + k p)%nat -> is_bytes y = true ->
  hint_bit_unpack p y = Ok (Some h) -> is_hint (k p) (omega p) h /\ hint_bit_pack p h = Ok y.
Proof.
  intros Om L B E. destruct (nat_omega_split y _ _ L) as (a & cs & -> & La & Lc).
  rewrite is_bytes_app in B. apply andb_true_iff in B as [Ba Bc].
  rewrite unpack_list in E by assumption. injection E as E.
  assert (P : Forall (fun x => 0 <= x) cs).
  { apply is_bytes_forall in Bc. eapply Forall_impl; [|exact Bc]. cbv beta. intros; lia. }
  destruct (rows_list_inv (omega p) a La Ba cs 0%nat h P ltac:(lia) E) as (A1 & A2 & A3 & A4 & A5).
  assert (F : Forall (fun r => length r = 256%nat) h) by (eapply Forall_impl; [|exact A1]; intros r [X _]; exact X).
  split.
  - split; [congruence|]. split; [exact A1|]. rewrite <- total_nonzeros by exact F. exact A3.
  - rewrite hint_pack_ok by (assumption || congruence). unfold encoding. rewrite app_assoc. cbn [skipn Nat.add] in A4.
    rewrite <- A4, <- A5. reflexivity.
Qed.

Lemma hint_unpack_total p y : length y = (omega p + k p)%nat -> exists o, hint_bit_unpack p y = Ok o.
Proof.
  intro L. destruct (nat_omega_split y _ _ L) as (a & cs & -> & La & Lc).
  rewrite unpack_list by assumption. eexists. reflexivity.
Qed.

Lemma hint_unpack_empty p : (0 < k p)%nat -> forall y, (length y <= omega p)%nat -> hint_bit_unpack p y = Err EIndexError.
Proof.
  intros Hk y L. unfold hint_bit_unpack. destruct (k p) as [|n]; [lia|]. cbn [seq hint_unpack_rows].
  destruct (Nat.leb_spec (length y) (omega p + 0)); [reflexivity|lia].
Qed.
