(** Proofs: exact answers of [is_bit_set], names to bits and back. *)
From Coq Require Import String Ascii NArith DecimalString DecimalNat DecimalFacts.
From Verif Require Import Prelude PreludeFacts PyStr PyStrProofs BitModel BitSpec BitProofs.
Local Notation length := List.length.
Local Open Scope string_scope.


Lemma sub_names names ns : good_names names -> (forall n, In n ns -> In n names) -> Forall (fun n => is_name n = true) ns.
Proof. intros (_ & Hg) H. apply Forall_forall. intros n Hn. rewrite Forall_forall in Hg. auto. Qed.
Lemma padded_name_eq q n : is_name q = true -> is_name n = true -> padded is_space q n -> q = n.
Proof.
  intros Hq Hn H. rewrite <- (padded_strip is_space q n within_space Hn H). symmetry. apply strip_clean, name_no_space, Hq.
Qed.
Lemma names_set_names names x n : good_names names -> In n (names_set names x) -> is_name n = true.
Proof.
  intros (_ & Hg) H. apply names_set_In in H. destruct H as (i & Hi & _). apply nth_error_In in Hi.
  rewrite Forall_forall in Hg. auto.
Qed.
Lemma parts_ne parts ns : Forall (fun n => is_name n = true) ns -> Forall2 (padded is_space) parts ns -> Forall (fun q => q <> "") parts.
Proof. intros Hn H. induction H; [constructor|]. inversion Hn; subst. constructor; [eapply padded_ne; eauto|auto]. Qed.
(** If the parts are themselves the names of set bits, they carry no padding. *)
Lemma parts_are names x parts ns :
  good_names names -> Forall (fun n => is_name n = true) ns -> Forall2 (padded is_space) parts ns ->
  names_set names x = parts -> parts = ns.
Proof.
  intros G Hn F E. assert (Forall (fun q => is_name q = true) parts) as Hp.
  { apply Forall_forall. intros q Hq. rewrite <- E in Hq. eapply names_set_names; eauto. }
  clear E. induction F as [|q n parts ns Hq F IH]; [reflexivity|]. inversion Hn; inversion Hp; subst.
  f_equal; [apply padded_name_eq; auto|auto].
Qed.

Lemma lists_parts p s ns : within p -> Forall (fun n => is_name n = true) ns -> lists p s ns ->
  exists parts, split "," (strip is_blank s) = parts /\ Forall2 (padded p) parts ns.
Proof.
  intros W Hn Hl. destruct (strip_lists p s ns Hn Hl) as (Hne & parts & E & F). exists parts. split; [|exact F].
  rewrite E. eapply split_parts; eauto.
Qed.

(** *** Any of the listed names *)
Lemma names_any names x s ns :
  good_names names -> lists is_space s ns -> (forall n, In n ns -> In n names) ->
  exists b, is_bit_set (bits names x) (AStr s) false = Ok b /\
            (b = true <-> exists n, In n ns /\ named_set names x n).
Proof.
  intros G Hl Hin. pose proof (sub_names names ns G Hin) as Hn.
  destruct (names_case names x s ns false G Hl Hin) as (l & Fl & E). fold (bits names x) in E. rewrite E. cbv zeta.
  destruct (lists_parts is_space s ns within_space Hn Hl) as (parts & Ep & F). rewrite Ep.
  destruct (strs_eqb _ parts) eqn:Eq.
  - exists true. split; [reflexivity|]. split; [intros _|reflexivity].
    apply all_set_eq in Eq; [|apply G|eapply parts_ne; eauto].
    pose proof (parts_are names x parts ns G Hn F Eq) as ->. destruct Hl as (Hne & _).
    destruct ns as [|n ns]; [contradiction|]. exists n. split; [left; reflexivity|]. apply names_set_In. rewrite Eq. left. reflexivity.
  - rewrite andb_false_r. exists (is_either_bit_set x (map Z.of_nat l) false). split; [reflexivity|].
    apply (either_names names x ns l false); [apply G|exact Fl].
Qed.

(** *** Only the listed name *)
Lemma names_set_single names x n :
  NoDup names -> (length x <= length names)%nat -> (names_set names x = [n] <-> only_named names x n).
Proof.
  intros Hd Hx. split.
  - intros E. assert (In n (names_set names x)) as Hn by (rewrite E; left; reflexivity). apply names_set_In in Hn.
    destruct Hn as (i & Hi & Hs). exists i. split; [exact Hi|]. split; [exact Hs|]. intros j Hj.
    assert (j < length names)%nat as Lj. { assert (j < length x)%nat by (apply nth_error_Some; rewrite Hj; discriminate). lia. }
    destruct (nth_error names j) as [m|] eqn:Em; [|apply nth_error_None in Em; lia].
    assert (In m (names_set names x)) as Hm by (apply names_set_In; exists j; split; assumption).
    rewrite E in Hm. destruct Hm as [<-|[]]. apply (proj1 (NoDup_nth_error names) Hd j i Lj). congruence.
  - intros (i & Hi & Hs & Ho). assert (forall m, In m (names_set names x) -> m = n) as Hall.
    { intros m Hm. apply names_set_In in Hm. destruct Hm as (j & Hj & Hjs). rewrite (Ho j Hjs) in Hj. congruence. }
    assert (In n (names_set names x)) as Hn by (apply names_set_In; exists i; split; assumption).
    pose proof (names_set_nodup names x Hd) as Hnd. destruct (names_set names x) as [|a [|b r]].
    + destruct Hn.
    + rewrite (Hall a); [reflexivity|left; reflexivity].
    + exfalso. inversion Hnd; subst. apply H1. left. rewrite (Hall a), (Hall b); [reflexivity|right; left; reflexivity|left; reflexivity].
Qed.

Lemma all_set_case names x : Forall (fun n => is_name n = true) names -> names <> [] ->
  (strs_eqb (split2 "," " " (String.concat ", " (names_set names x))) names = true
   <-> forall i, (i < length names)%nat -> is_set x i).
Proof.
  intros Hg Hne. split.
  - intros H. apply all_set_eq in H; [|exact Hg|]. { intros i Hi. eapply names_set_all_inv; eauto. }
    eapply Forall_impl; [|exact Hg]. intros n Hn ->. discriminate.
  - intros H. apply all_set_eq'; [exact Hg|exact Hne|]. apply names_set_all, H.
Qed.

Lemma names_exclusive names x s n :
  good_names names -> (2 <= length names)%nat -> lists is_space s [n] -> In n names ->
  ((forall i, (i < length names)%nat -> is_set x i) -> is_bit_set (bits names x) (AStr s) true = Err EValueError) /\
  (~ (forall i, (i < length names)%nat -> is_set x i) -> (length x <= length names)%nat ->
   exists b, is_bit_set (bits names x) (AStr s) true = Ok b /\ (b = true <-> only_named names x n)).
Proof.
  intros G L Hl Hin. assert (forall m, In m [n] -> In m names) as Hin' by (intros m [<-|[]]; exact Hin).
  pose proof (sub_names names [n] G Hin') as Hn.
  destruct (names_case names x s [n] true G Hl Hin') as (l & Fl & E). fold (bits names x) in E. rewrite E. cbv zeta.
  destruct (lists_parts is_space s [n] within_space Hn Hl) as (parts & Ep & F). rewrite Ep.
  assert (names <> []) as Hne by (intros ->; simpl in L; lia).
  split.
  - intros Hall. pose proof (names_set_all names x Hall) as En.
    assert (strs_eqb (split2 "," " " (String.concat ", " (names_set names x))) parts = false) as ->.
    { apply Bool.not_true_is_false. intros Eq. apply all_set_eq in Eq; [|apply G|eapply parts_ne; eauto].
      pose proof (Forall2_len _ _ _ F) as Lp. rewrite <- Eq, En in Lp. simpl in Lp. lia. }
    rewrite (proj2 (all_set_case names x (proj2 G) Hne) Hall). reflexivity.
  - intros Hnall Hx. destruct (strs_eqb _ parts) eqn:Eq.
    + exists true. split; [reflexivity|]. split; [intros _|reflexivity].
      apply all_set_eq in Eq; [|apply G|eapply parts_ne; eauto].
      pose proof (parts_are names x parts [n] G Hn F Eq) as ->. apply names_set_single; [apply G|exact Hx|exact Eq].
    + destruct (strs_eqb _ names) eqn:Ea.
      { exfalso. apply Hnall. apply (all_set_case names x (proj2 G) Hne). exact Ea. }
      simpl andb. cbv iota. exists (is_either_bit_set x (map Z.of_nat l) true). split; [reflexivity|].
      rewrite (either_names names x [n] l true); [|apply G|exact Fl]. split.
      * intros (m & [<-|[]] & H). exact H.
      * intros H. exists n. split; [left; reflexivity|exact H].
Qed.

(** *** A list without white space, exclusively *)
Lemma concat_names_clean r ns : within r -> Forall (fun n => is_name n = true) ns -> strip r (String.concat "," ns) = String.concat "," ns.
Proof.
  intros W Hn. apply strip_clean. apply all_chars_spec. intros c Hc.
  assert (Ascii.eqb c "," = true \/ exists n, In n ns /\ In_chars c n) as [H|(n & H1 & H2)].
  { clear Hn. induction ns as [|a ns IH]; [destruct Hc|]. destruct ns as [|b ns].
    - right. exists a. split; [left; reflexivity|exact Hc].
    - rewrite concat_cons, !In_chars_app in Hc. destruct Hc as [Hc|[Hc|Hc]].
      + right. exists a. split; [left; reflexivity|exact Hc].
      + simpl in Hc. destruct Hc as [<-|[]]. left. reflexivity.
      + destruct (IH Hc) as [H|(n & H1 & H2)]; [left; exact H|right; exists n; split; [right; exact H1|exact H2]]. }
  - apply Ascii.eqb_eq in H. subst c. apply negb_true_iff. destruct (r ","%char) eqn:E; [|reflexivity]. apply W in E. discriminate.
  - rewrite Forall_forall in Hn. pose proof (name_no r n W (Hn n H1)) as H. rewrite all_chars_spec in H. apply H, H2.
Qed.
Lemma lists_plain p ns : ns <> [] -> lists p (String.concat "," ns) ns.
Proof.
  intros H. split; [exact H|]. exists ns. split; [reflexivity|]. clear H. induction ns; constructor; [apply padded_self|assumption].
Qed.
Lemma split_plain ns : ns <> [] -> Forall (fun n => is_name n = true) ns -> split "," (strip is_blank (String.concat "," ns)) = ns.
Proof.
  intros Hne Hn. rewrite (concat_names_clean is_blank ns within_blank Hn). apply split_concat; [exact Hne|].
  eapply Forall_impl; [|exact Hn]. intros n. apply name_no_comma.
Qed.

Lemma names_exclusive_list names x ns :
  good_names names -> ns <> [] -> (forall n, In n ns -> In n names) ->
  (names_set names x = ns -> is_bit_set (bits names x) (AStr (String.concat "," ns)) true = Ok true) /\
  (names_set names x <> ns -> (forall i, (i < length names)%nat -> is_set x i) ->
   is_bit_set (bits names x) (AStr (String.concat "," ns)) true = Err EValueError) /\
  (names_set names x <> ns -> ~ (forall i, (i < length names)%nat -> is_set x i) ->
   exists b, is_bit_set (bits names x) (AStr (String.concat "," ns)) true = Ok b /\
             (b = true <-> exists n, In n ns /\ only_named names x n)).
Proof.
  intros G Hne Hin. pose proof (sub_names names ns G Hin) as Hn.
  destruct (names_case names x _ ns true G (lists_plain is_space ns Hne) Hin) as (l & Fl & E).
  fold (bits names x) in E. rewrite E. cbv zeta. rewrite (split_plain ns Hne Hn).
  assert (names <> []) as Hne'.
  { destruct ns as [|n ns]; [contradiction|]. intros ->. destruct (Hin n (or_introl eq_refl)). }
  assert (Forall (fun q => q <> "") ns) as Hq.
  { eapply Forall_impl; [|exact Hn]. intros n H ->. discriminate. }
  split; [|split].
  - intros Es. rewrite (all_set_eq' names x ns (proj2 G) Hne Es). reflexivity.
  - intros Hns Hall. assert (strs_eqb (split2 "," " " (String.concat ", " (names_set names x))) ns = false) as ->.
    { apply Bool.not_true_is_false. intros Eq. apply all_set_eq in Eq; [contradiction|apply G|exact Hq]. }
    rewrite (proj2 (all_set_case names x (proj2 G) Hne') Hall). reflexivity.
  - intros Hns Hnall. assert (strs_eqb (split2 "," " " (String.concat ", " (names_set names x))) ns = false) as ->.
    { apply Bool.not_true_is_false. intros Eq. apply all_set_eq in Eq; [contradiction|apply G|exact Hq]. }
    destruct (strs_eqb _ names) eqn:Ea.
    { exfalso. apply Hnall. apply (all_set_case names x (proj2 G) Hne'). exact Ea. }
    simpl andb. cbv iota. exists (is_either_bit_set x (map Z.of_nat l) true). split; [reflexivity|].
    apply (either_names names x ns l true); [apply G|exact Fl].
Qed.

(** *** Unknown names *)
Lemma name_index_err names n : ~ In n names -> name_index names n = Err EValueError.
Proof. intros H. unfold name_index. rewrite (proj2 (str_index_none n names) H). reflexivity. Qed.
Lemma Forall2_In_r {A B} (R : A -> B -> Prop) l l' y : Forall2 R l l' -> In y l' -> exists x, In x l /\ R x y.
Proof.
  intros F. induction F as [|a b l l' H F IH]; intros []; [subst; exists a; split; [left; reflexivity|exact H]|].
  destruct (IH H0) as (z & H1 & H2). exists z. split; [right; exact H1|exact H2].
Qed.
Lemma unknown_name names x s ns n excl :
  Forall (fun m => is_name m = true) ns -> lists is_space s ns -> In n ns -> ~ In n names ->
  is_bit_set (bits names x) (AStr s) excl = Err EValueError.
Proof.
  intros Hn Hl Hi Hni. unfold is_bit_set. cbn [b_val bits]. rewrite (lists_not_digits s ns Hn Hl). cbv zeta.
  unfold bits. rewrite get_names_eq. cbn [bind b_names].
  destruct (lists_parts is_space s ns within_space Hn Hl) as (parts & Ep & F). rewrite Ep.
  destruct (Forall2_In_r _ _ _ n F Hi) as (q & Hq & Hp).
  rewrite (mapM_err _ parts EValueError); [reflexivity| |].
  - intros v _. unfold name_index. destruct (str_index _ _); auto.
  - exists q. split; [exact Hq|]. rewrite Forall_forall in Hn. rewrite (padded_strip is_space q n within_space (Hn n Hi) Hp).
    apply name_index_err, Hni.
Qed.

(** *** Decimal indices *)
Lemma digits_val_uint d acc : digits_val (Z.of_nat acc) (NilEmpty.string_of_uint d) = Z.of_nat (Nat.of_uint_acc d acc).
Proof.
  revert acc. induction d; intros acc; simpl NilEmpty.string_of_uint; simpl Nat.of_uint_acc; [reflexivity|..];
    cbn [digits_val]; rewrite <- IHd; f_equal; rewrite Nat.tail_mul_spec; unfold code; cbn -[Z.mul Z.add Nat.mul]; lia.
Qed.
Lemma to_uint_nonnil i : Nat.to_uint i <> Decimal.Nil.
Proof. rewrite <- (Unsigned.of_to i), Unsigned.to_of. apply DecimalFacts.unorm_nonnil. Qed.
Lemma uint_digits d : all_chars is_digit (NilEmpty.string_of_uint d) = true.
Proof. induction d; simpl; auto. Qed.
Lemma dec_eq i : dec i = NilEmpty.string_of_uint (Nat.to_uint i).
Proof. unfold dec, NilZero.string_of_uint. pose proof (to_uint_nonnil i). destruct (Nat.to_uint i); [contradiction|..]; reflexivity. Qed.
Lemma dec_digits i : isdigit (dec i) = true.
Proof.
  rewrite dec_eq. pose proof (uint_digits (Nat.to_uint i)) as H. pose proof (to_uint_nonnil i) as Hn.
  destruct (Nat.to_uint i); [contradiction|..]; exact H.
Qed.
Lemma isdigit_chars s : isdigit s = true -> all_chars is_digit s = true.
Proof. destruct s; [discriminate|]. exact (fun h => h). Qed.
Lemma digits_clean r s : within r -> all_chars is_digit s = true -> all_chars (fun c => negb (r c)) s = true.
Proof.
  intros W H. rewrite all_chars_spec in *. intros c Hc. destruct (digit_not c (H c Hc)) as [H1 _].
  apply negb_true_iff. destruct (r c) eqn:E; [|reflexivity]. rewrite (W c E) in H1. discriminate.
Qed.
Lemma digits_no_comma s : all_chars is_digit s = true -> no_char "," s = true.
Proof.
  intros H. unfold no_char. rewrite all_chars_spec in *. intros c Hc. apply negb_true_iff. apply digit_not, H, Hc.
Qed.
Lemma dec_int i : int_of (dec i) = Ok (Z.of_nat i).
Proof.
  unfold int_of. rewrite (strip_clean is_space (dec i) (digits_clean is_space _ within_space (isdigit_chars _ (dec_digits i)))).
  cbv zeta. rewrite dec_digits. rewrite dec_eq. change 0%Z with (Z.of_nat 0). rewrite digits_val_uint.
  change (Nat.of_uint_acc (Nat.to_uint i) 0) with (Nat.of_uint (Nat.to_uint i)). rewrite Unsigned.of_to. reflexivity.
Qed.
Lemma remove_no d s : no_char d s = true -> remove d s = s.
Proof.
  induction s; simpl; intros H; [reflexivity|]. apply andb_true_iff in H. destruct H as [H1 H2]. apply negb_true_iff in H1.
  rewrite H1. f_equal. auto.
Qed.
Lemma decimal_index names x i excl :
  is_bit_set (bits names x) (AStr (dec i)) excl = is_bit_set (bits names x) (AInt (Z.of_nat i)) excl.
Proof.
  unfold is_bit_set. cbn [b_val bits]. pose proof (isdigit_chars _ (dec_digits i)) as Hd.
  rewrite (remove_no "," (dec i) (digits_no_comma _ Hd)).
  rewrite (strip_clean is_blank (dec i) (digits_clean is_blank _ within_blank Hd)), dec_digits.
  assert (has_char "," (dec i) = false) as ->.
  { unfold has_char. pose proof (digits_no_comma _ Hd) as H. unfold no_char in H. rewrite H. reflexivity. }
  rewrite (strip_clean is_space (dec i) (digits_clean is_space _ within_space Hd)), dec_int. reflexivity.
Qed.

Lemma remove_app d s t : remove d (s ++ t) = remove d s ++ remove d t.
Proof. induction s; simpl; [reflexivity|]. destruct (Ascii.eqb a d); simpl; congruence. Qed.
Lemma decimal_list names x i j l excl :
  exists b, is_bit_set (bits names x) (AStr (String.concat "," (map dec (i :: j :: l)))) excl = Ok b /\
            (b = true <-> exists k, In k (i :: j :: l) /\ (if excl then only_set x k else is_set x k)).
Proof.
  set (L := (i :: j :: l)). set (s := String.concat "," (map dec L)).
  assert (forall c, In_chars c s -> is_digit c = true \/ c = ","%char) as Hs.
  { subst s. clear. induction L as [|a L IH]; [intros c []|]. intros c. destruct L as [|b L].
    - intros H. left. pose proof (isdigit_chars _ (dec_digits a)) as Hd. rewrite all_chars_spec in Hd. apply Hd, H.
    - simpl map. rewrite concat_cons, !In_chars_app. intros [H|[H|H]].
      + left. pose proof (isdigit_chars _ (dec_digits a)) as Hd. rewrite all_chars_spec in Hd. apply Hd, H.
      + simpl in H. destruct H as [<-|[]]. right. reflexivity.
      + apply IH, H. }
  assert (all_chars is_digit (remove "," s) = true) as Hrm.
  { apply all_chars_spec. clear - Hs. induction s as [|a s IH]; [intros c []|]. intros c. simpl.
    destruct (Ascii.eqb_spec a ","); [intros H; apply IH; [intros d Hd; apply Hs; right; exact Hd|exact H]|].
    simpl. intros [<-|H]; [destruct (Hs a (or_introl eq_refl)); [assumption|contradiction]|].
    apply IH; [intros d Hd; apply Hs; right; exact Hd|exact H]. }
  assert (remove "," s <> "") as Hne.
  { subst s L. simpl map. rewrite concat_cons, remove_app. pose proof (dec_digits i) as Hd.
    rewrite (remove_no "," (dec i) (digits_no_comma _ (isdigit_chars _ Hd))). destruct (dec i); [discriminate|]. discriminate. }
  assert (all_chars (fun c => negb (is_blank c)) s = true) as Hb.
  { apply all_chars_spec. intros c Hc. destruct (Hs c Hc) as [H| ->]; [|reflexivity].
    destruct (digit_not c H) as [H1 _]. apply negb_true_iff. destruct (is_blank c) eqn:E; [|reflexivity].
    rewrite (blank_space c E) in H1. discriminate. }
  unfold is_bit_set. cbn [b_val bits]. rewrite (strip_clean is_blank _ (digits_clean is_blank _ within_blank Hrm)).
  assert (isdigit (remove "," s) = true) as -> by (destruct (remove "," s); [contradiction|exact Hrm]).
  assert (has_char "," s = true) as ->.
  { apply has_char_spec. subst s L. simpl map. rewrite concat_cons, !In_chars_app. right. left. left. reflexivity. }
  rewrite (strip_clean is_blank s Hb). unfold s. rewrite split_concat;
    [|discriminate|apply Forall_forall; intros q Hq; apply in_map_iff in Hq; destruct Hq as (k & <- & _);
      apply digits_no_comma, isdigit_chars, dec_digits].
  assert (mapM int_of (map dec L) = Ok (map Z.of_nat L)) as ->.
  { apply mapM_ok. clear. induction L; constructor; [apply dec_int|assumption]. }
  cbn [bind]. exists (is_either_bit_set x (map Z.of_nat L) excl). split; [reflexivity|]. apply either_spec.
Qed.

(** *** Negative indices *)
Lemma negative_index names x k excl : (1 <= k <= length x)%nat ->
  is_bit_set (bits names x) (AInt (- Z.of_nat k)) excl = is_bit_set (bits names x) (AInt (Z.of_nat (length x - k))) excl.
Proof.
  intros H. unfold is_bit_set. cbn [b_val bits]. unfold is_bit_set_in_bitstring. rewrite py_nth_nat.
  assert (py_nth x (- Z.of_nat k) = nth_error x (length x - k)) as ->; [|reflexivity].
  unfold py_nth. destruct (0 <=? - Z.of_nat k)%Z eqn:E; [apply Z.leb_le in E; lia|].
  cbv zeta. destruct (- Z.of_nat (length x) <=? - Z.of_nat k)%Z eqn:E'; [|apply Z.leb_gt in E'; lia].
  f_equal. lia.
Qed.

(** ** Names to bits *)
Lemma set_nth_length i l : length (set_nth i l) = length l.
Proof. revert i. induction l as [|b l IH]; intros [|i]; simpl; congruence. Qed.
Lemma set_nth_spec i l j : (i < length l)%nat -> (is_set (set_nth i l) j <-> j = i \/ is_set l j).
Proof.
  unfold is_set. revert i j. induction l as [|b l IH]; intros i j Hi; [simpl in Hi; lia|]. destruct i as [|i]; destruct j as [|j]; simpl.
  - tauto.
  - split; [auto|intros [H|H]; [discriminate|exact H]].
  - split; [auto|intros [H|H]; [discriminate|exact H]].
  - rewrite IH by (simpl in Hi; lia). split; intros [H|H]; auto.
Qed.
Lemma set_values_ok names parts ns l :
  Forall (fun n => is_name n = true) ns -> (forall n, In n ns -> In n names) -> NoDup names ->
  Forall2 (padded is_space) parts ns -> (length names <= length l)%nat ->
  exists l', set_values names l parts = Ok l' /\ length l' = length l /\
             forall i, is_set l' i <-> is_set l i \/ exists n, In n ns /\ nth_error names i = Some n.
Proof.
  intros Hn Hin Hd F. revert l. induction F as [|q n parts ns Hq F IH]; intros l Hl.
  - exists l. split; [reflexivity|]. split; [reflexivity|]. intros i. split; [auto|intros [H|(n & [] & _)]; exact H].
  - inversion Hn as [|? ? Hn1 Hn2]; subst. cbn [set_values]. rewrite (padded_strip is_space q n within_space Hn1 Hq).
    destruct (str_index n names) as [k|] eqn:Ek; [|apply str_index_none in Ek; exfalso; apply Ek, Hin; left; reflexivity].
    apply str_index_some in Ek. assert (k < length names)%nat as Lk by (apply nth_error_Some; congruence).
    destruct (IH Hn2 (fun m H => Hin m (or_intror H)) (set_nth k l)) as (l' & E & L & S); [rewrite set_nth_length; exact Hl|].
    exists l'. split; [exact E|]. split; [rewrite L; apply set_nth_length|]. intros i. rewrite S, set_nth_spec by lia.
    split.
    + intros [[->|H]|(m & H1 & H2)]; [right; exists n; split; [left; reflexivity|exact Ek]|left; exact H|].
      right. exists m. split; [right; exact H1|exact H2].
    + intros [H|(m & [<-|H1] & H2)]; [auto| |right; exists m; auto].
      left. left. apply (proj1 (NoDup_nth_error names) Hd); [apply nth_error_Some; congruence|congruence].
Qed.

Lemma drop_false_spec r : exists k, r = (repeat false k ++ drop_false r)%list /\ (drop_false r = [] \/ exists t, drop_false r = true :: t).
Proof.
  induction r as [|b r IH]; [exists O; auto|]. destruct b; [exists O; split; [reflexivity|right; exists r; reflexivity]|].
  destruct IH as (k & E & H). exists (S k). split; [simpl; congruence|exact H].
Qed.
Lemma rev_repeat {A} (a : A) k : rev (repeat a k) = repeat a k.
Proof.
  induction k; [reflexivity|]. simpl. rewrite IHk. clear. induction k; [reflexivity|]. simpl. congruence.
Qed.
Lemma trim_spec l : exists k, l = (rev (drop_false (rev l)) ++ repeat false k)%list /\
  (rev (drop_false (rev l)) = [] \/ exists t, rev (drop_false (rev l)) = (t ++ [true])%list).
Proof.
  destruct (drop_false_spec (rev l)) as (k & E & H). exists k. split.
  - apply (f_equal (@rev bool)) in E. rewrite rev_involutive, rev_app_distr, rev_repeat in E. exact E.
  - destruct H as [H|(t & H)]; [left; rewrite H; reflexivity|right; exists (rev t); rewrite H; reflexivity].
Qed.
Lemma is_set_app_false x k i : is_set (x ++ repeat false k)%list i <-> is_set x i.
Proof.
  unfold is_set. destruct (Nat.lt_ge_cases i (length x)) as [H|H].
  - rewrite nth_error_app1 by exact H. tauto.
  - rewrite nth_error_app2 by exact H. rewrite (proj2 (nth_error_None x i) H). split; [|discriminate]. intros E.
    apply nth_error_In, repeat_spec in E. discriminate.
Qed.
Lemma repeat_false_set k i : ~ is_set (repeat false k) i.
Proof. unfold is_set. intros E. apply nth_error_In, repeat_spec in E. discriminate. Qed.

Lemma names_to_bits names s ns :
  good_names names -> lists is_space s ns -> (forall n, In n ns -> In n names) ->
  exists y, asn1_names_to_bitstring names s = Ok (bits names (y ++ [true])%list) /\
            forall i, is_set (y ++ [true])%list i <-> exists n, In n ns /\ nth_error names i = Some n.
Proof.
  intros G Hl Hin. pose proof (sub_names names ns G Hin) as Hn.
  destruct (lists_parts is_space s ns within_space Hn Hl) as (parts & Ep & F).
  unfold asn1_names_to_bitstring. rewrite Ep.
  destruct (set_values_ok names parts ns (repeat false (length names + 1)) Hn Hin (proj1 G) F) as (l & E & L & S);
    [rewrite repeat_length; lia|]. rewrite E. cbn [bind].
  destruct (trim_spec l) as (k & El & Hc). set (x := rev (drop_false (rev l))) in *.
  assert (forall i, is_set x i <-> exists n, In n ns /\ nth_error names i = Some n) as Sx.
  { intros i. rewrite <- (is_set_app_false x k i), <- El, S. split; [|auto]. intros [H|H]; [|exact H].
    exfalso. exact (repeat_false_set _ _ H). }
  destruct Hc as [Hc|(t & Hc)].
  - exfalso. destruct Hl as (Hne & _). destruct ns as [|n ns]; [contradiction|].
    destruct (In_nth_error names n (Hin n (or_introl eq_refl))) as (i & Hi).
    assert (is_set x i) as H by (apply Sx; exists n; split; [left; reflexivity|exact Hi]).
    rewrite Hc in H. destruct i; discriminate.
  - exists t. rewrite <- Hc. split; [reflexivity|exact Sx].
Qed.

Lemma set_values_err names l parts :
  (exists q, In q parts /\ ~ In (strip is_space q) names) -> set_values names l parts = Err EValueError.
Proof.
  revert l. induction parts as [|p parts IH]; intros l (q & Hq & Hn); [destruct Hq|]. cbn [set_values].
  destruct (str_index (strip is_space p) names) as [i|] eqn:E; [|reflexivity].
  destruct Hq as [->|Hq]; [rewrite (proj2 (str_index_none _ names) Hn) in E; discriminate|]. apply IH. eauto.
Qed.
Lemma names_to_bits_unknown names s ns n :
  Forall (fun m => is_name m = true) ns -> lists is_space s ns -> In n ns -> ~ In n names ->
  asn1_names_to_bitstring names s = Err EValueError.
Proof.
  intros Hn Hl Hi Hni. unfold asn1_names_to_bitstring.
  destruct (lists_parts is_space s ns within_space Hn Hl) as (parts & Ep & F). rewrite Ep.
  destruct (Forall2_In_r _ _ _ n F Hi) as (q & Hq & Hp). rewrite set_values_err; [reflexivity|].
  exists q. split; [exact Hq|]. rewrite Forall_forall in Hn. rewrite (padded_strip is_space q n within_space (Hn n Hi) Hp). exact Hni.
Qed.

(** *** pyasn1's reading of names *)
Lemma max_list_In l : l <> [] -> In (max_list l) l.
Proof.
  induction l as [|a l IH]; [contradiction|]. intros _. destruct l as [|b l]; [left; simpl; lia|].
  simpl max_list. specialize (IH ltac:(discriminate)). change (max_list (b :: l)) with (Nat.max b (max_list l)) in IH.
  destruct (Nat.max_dec a (Nat.max b (max_list l))) as [->| ->]; [left; reflexivity|right; exact IH].
Qed.
Lemma max_list_ge l i : In i l -> (i <= max_list l)%nat.
Proof. induction l as [|a l IH]; intros []; simpl; [lia|]. specialize (IH H). lia. Qed.
Lemma nth_map_seq (f : nat -> bool) a n i : nth_error (map f (seq a n)) i = if Nat.ltb i n then Some (f (a + i)%nat) else None.
Proof.
  revert a i. induction n as [|n IH]; intros a i; [destruct i; reflexivity|]. destruct i as [|i]; simpl; [do 2 f_equal; lia|].
  rewrite IH. change (Nat.ltb (S i) (S n)) with (Nat.ltb i n). destruct (Nat.ltb i n); [do 2 f_equal; lia|reflexivity].
Qed.
Lemma bitstr_of_ok names s ns :
  good_names names -> lists is_space s ns -> (forall n, In n ns -> In n names) ->
  exists y, bitstr_of names s = Ok (bits names (y ++ [true])%list) /\
            forall i, is_set (y ++ [true])%list i <-> exists n, In n ns /\ nth_error names i = Some n.
Proof.
  intros G Hl Hin. pose proof (sub_names names ns G Hin) as Hn.
  assert (s <> "") as Hs. { destruct (lists_letter s ns Hn Hl) as (c & Hc & _). intros ->. destruct Hc. }
  pose proof (lists_not_isdigit s ns Hn Hl) as Hd.
  destruct Hl as (Hne & parts & Es & F).
  assert (exists ps, mapM (fun v => match str_index (strip is_space v) names with Some i => Ok i | None => Err EPyAsn1 end) parts
                     = Ok ps /\ Forall2 (fun n i => nth_error names i = Some n) ns ps) as (ps & E & Fp).
  { clear Es Hne. induction F as [|q n parts ns Hq F IH]; [exists []; split; [reflexivity|constructor]|].
    inversion Hn as [|? ? Hn1 Hn2]; subst. destruct (IH (fun m H => Hin m (or_intror H)) Hn2) as (ps & E & Fp).
    destruct (str_index n names) as [i|] eqn:Ei; [|apply str_index_none in Ei; exfalso; apply Ei, Hin; left; reflexivity].
    exists (i :: ps). split; [|constructor; [apply str_index_some, Ei|exact Fp]]. cbn [mapM].
    rewrite (padded_strip is_space q n within_space Hn1 Hq), Ei. cbn [bind]. rewrite E. reflexivity. }
  assert (ps <> []) as Hps by (intros ->; inversion Fp; subst; contradiction).
  set (m := max_list ps).
  exists (map (fun i => existsb (Nat.eqb i) ps) (seq 0 m)).
  assert (map (fun i => existsb (Nat.eqb i) ps) (seq 0 (m + 1)) = (map (fun i => existsb (Nat.eqb i) ps) (seq 0 m) ++ [true])%list) as Em.
  { rewrite seq_app, map_app. f_equal. simpl. f_equal. apply existsb_exists. exists m. split; [apply max_list_In, Hps|apply Nat.eqb_refl]. }
  split.
  - unfold bitstr_of. destruct s as [|c r]; [contradiction|]. rewrite Hd. rewrite Es.
    rewrite (split_parts is_space parts ns within_space Hne Hn F), E. cbn [bind]. fold m. rewrite Em. reflexivity.
  - intros i. rewrite <- Em. unfold is_set. rewrite nth_map_seq. simpl (0 + i)%nat.
    destruct (Nat.ltb_spec i (m + 1)) as [Li|Li].
    + transitivity (In i ps).
      * split.
        -- intros H. assert (existsb (Nat.eqb i) ps = true) as H' by congruence. apply existsb_exists in H'.
           destruct H' as (j & Hj & Hij). apply Nat.eqb_eq in Hij. subst. exact Hj.
        -- intros H. f_equal. apply existsb_exists. exists i. split; [exact H|apply Nat.eqb_refl].
      * clear - Fp G. split.
        -- intros H. induction Fp as [|n j ns ps Hj Fp IH]; [destruct H|]. destruct H as [->|H]; [exists n; split; [left; reflexivity|exact Hj]|].
           destruct (IH H) as (k & H1 & H2). exists k. split; [right; exact H1|exact H2].
        -- intros (n & H & Hi). induction Fp as [|k j ns ps Hj Fp IH]; [destruct H|]. destruct H as [->|H]; [|right; auto].
           left. apply (proj1 (NoDup_nth_error names) (proj1 G)); [apply nth_error_Some; congruence|congruence].
    + split; [discriminate|]. intros (n & H & Hi). exfalso.
      assert (In i ps) as Hip.
      { clear - Fp G H Hi. induction Fp as [|k j ns ps Hj Fp IH]; [destruct H|]. destruct H as [->|H]; [|right; auto].
        left. apply (proj1 (NoDup_nth_error names) (proj1 G)); [apply nth_error_Some; congruence|congruence]. }
      apply max_list_ge in Hip. fold m in Hip. lia.
Qed.

(** Bit lists that end in a set bit are determined by their set bits. *)
Lemma bits_ext (x y : list bool) : length x = length y -> (forall i, is_set x i <-> is_set y i) -> x = y.
Proof.
  revert y. induction x as [|a x IH]; intros [|b y] L H; try discriminate; [reflexivity|]. f_equal.
  - pose proof (H O) as H0. unfold is_set in H0. simpl in H0. destruct a, b; try reflexivity; exfalso;
      [destruct H0 as [H0 _]|destruct H0 as [_ H0]]; specialize (H0 eq_refl); discriminate.
  - apply IH; [simpl in L; lia|]. intros i. apply (H (S i)).
Qed.
Lemma canonical_bits (x y : list bool) :
  (forall i, is_set (x ++ [true])%list i <-> is_set (y ++ [true])%list i) -> (x ++ [true] = y ++ [true])%list.
Proof.
  intros H. assert (forall u v : list bool, (forall i, is_set (u ++ [true])%list i -> is_set (v ++ [true])%list i) -> (length u <= length v)%nat) as A.
  { intros u v Huv. assert (is_set (u ++ [true])%list (length u)) as Hu.
    { unfold is_set. rewrite nth_error_app2 by lia. rewrite Nat.sub_diag. reflexivity. }
    apply Huv in Hu. assert (length u < length (v ++ [true])%list)%nat by (apply nth_error_Some; rewrite Hu; discriminate).
    rewrite app_length in H0. simpl in H0. lia. }
  apply bits_ext; [|exact H]. rewrite !app_length. f_equal. apply Nat.le_antisymm; apply A; intros i; apply H.
Qed.

Lemma same_bits names s ns :
  good_names names -> lists is_space s ns -> (forall n, In n ns -> In n names) ->
  bitstr_of names s = asn1_names_to_bitstring names s.
Proof.
  intros G Hl Hin. destruct (bitstr_of_ok names s ns G Hl Hin) as (y & E & S).
  destruct (names_to_bits names s ns G Hl Hin) as (y' & E' & S'). rewrite E, E'. unfold bits. do 3 f_equal.
  apply canonical_bits. intros i. rewrite S, S'. tauto.
Qed.
Lemma bitstr_of_unknown names s ns n :
  Forall (fun m => is_name m = true) ns -> lists is_space s ns -> In n ns -> ~ In n names ->
  bitstr_of names s = Err EPyAsn1.
Proof.
  intros Hn Hl Hi Hni. unfold bitstr_of. pose proof (lists_not_isdigit s ns Hn Hl) as Hd.
  destruct (lists_letter s ns Hn Hl) as (c & Hc & _). destruct s as [|c' r]; [destruct Hc|]. rewrite Hd.
  destruct Hl as (Hne & parts & Es & F). rewrite Es, (split_parts is_space parts ns within_space Hne Hn F).
  destruct (Forall2_In_r _ _ _ n F Hi) as (q & Hq & Hp).
  rewrite (mapM_err _ parts EPyAsn1); [reflexivity| |].
  - intros v _. destruct (str_index _ _); auto.
  - exists q. split; [exact Hq|]. rewrite Forall_forall in Hn. rewrite (padded_strip is_space q n within_space (Hn n Hi) Hp).
    rewrite (proj2 (str_index_none n names) Hni). reflexivity.
Qed.

(** ** Bits to names *)
Lemma names_set_filter names x L :
  (forall i n, nth_error names i = Some n -> (is_set x i <-> In n L)) ->
  names_set names x = filter (fun n => str_mem n L) names.
Proof.
  revert x. induction names as [|n names IH]; intros x H; [reflexivity|].
  destruct x as [|b x].
  - simpl filter. assert (str_mem n L = false) as ->.
    { apply Bool.not_true_is_false. intros E. apply str_mem_In in E. apply (H O n eq_refl) in E. discriminate. }
    rewrite <- (IH []); [destruct names; reflexivity|]. intros i m Hi. rewrite <- (H (S i) m Hi). unfold is_set. simpl.
    destruct i; tauto.
  - rewrite names_set_cons. simpl filter. rewrite (IH x) by (intros i m Hi; apply (H (S i) m Hi)).
    pose proof (H O n eq_refl) as H0. unfold is_set in H0. simpl in H0. destruct b.
    + rewrite (proj2 (str_mem_In n L)); [reflexivity|]. apply H0. reflexivity.
    + assert (str_mem n L = false) as ->; [|reflexivity]. apply Bool.not_true_is_false. intros E. apply str_mem_In in E.
      apply H0 in E. discriminate.
Qed.
Lemma names_set_eq names x y : NoDup names ->
  (names_set names x = names_set names y <-> forall n, named_set names x n <-> named_set names y n).
Proof.
  intros Hd. split.
  - intros E n. rewrite <- !names_set_In, E. tauto.
  - intros H. assert (forall z, names_set names z = filter (fun n => str_mem n (names_set names z)) names) as A.
    { intros z. apply names_set_filter. intros i n Hi. rewrite names_set_In. split; [intros Hs; exists i; auto|].
      intros (j & Hj & Hs). assert (j = i) as ->; [|exact Hs].
      apply (proj1 (NoDup_nth_error names) Hd); [apply nth_error_Some; congruence|congruence]. }
    rewrite (A x), (A y). apply filter_ext. intros n. apply Bool.eq_iff_eq_true. rewrite !str_mem_In, !names_set_In. apply H.
Qed.
Lemma concat_inj l l' : Forall (fun n => is_name n = true) l -> Forall (fun n => is_name n = true) l' ->
  String.concat ", " l = String.concat ", " l' -> l = l'.
Proof.
  intros H H' E.
  assert (forall k, Forall (fun n => is_name n = true) k -> k <> [] ->
    split2 "," " " (String.concat ", " k) = k /\ String.concat ", " k <> "") as A.
  { intros k Hk Hne. split.
    - apply split2_concat; [exact Hne|]. eapply Forall_impl; [|exact Hk]. intros n. apply name_no_comma.
    - destruct k as [|a k]; [contradiction|]. inversion Hk; subst. destruct a; [discriminate|]. destruct k; simpl; discriminate. }
  destruct l as [|a l]; destruct l' as [|b l']; [reflexivity| | |].
  - destruct (A _ H' ltac:(discriminate)) as [_ B]. exfalso. apply B. rewrite <- E. reflexivity.
  - destruct (A _ H ltac:(discriminate)) as [_ B]. exfalso. apply B. rewrite E. reflexivity.
  - destruct (A _ H ltac:(discriminate)) as [B _]. destruct (A _ H' ltac:(discriminate)) as [B' _]. congruence.
Qed.
