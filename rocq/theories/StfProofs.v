(** Numbers as bytes, the parameter tables, and the validation of level lists. *)
From Coq Require Import String Ascii Arith.
From Verif Require Import Prelude PreludeFacts StfModel StfSpec.
Open Scope Z_scope.
Local Notation length := List.length.

(** ** Bytes and numbers *)
Lemma le_len : forall k x, length (le k x) = k.
Proof. induction k; intros; simpl; [reflexivity | rewrite IHk; reflexivity]. Qed.
Lemma be_len : forall k x, length (be k x) = k.
Proof. intros. unfold be. rewrite rev_length. apply le_len. Qed.
Lemma le_bytes : forall k x, is_bytes (le k x) = true.
Proof.
  induction k; intros; simpl; [reflexivity|]. rewrite IHk, andb_true_r. unfold is_byte.
  pose proof (Z.mod_pos_bound x 256 ltac:(lia)). apply andb_true_iff. split; [apply Z.leb_le | apply Z.ltb_lt]; lia.
Qed.
Lemma fold_be : forall l a, fold_left (fun t x => 256 * t + x) l a = a * 256 ^ Z.of_nat (length l) + from_be l.
Proof.
  unfold from_be. induction l as [|x l IH]; intros a.
  - simpl fold_left. simpl length. change (256 ^ Z.of_nat 0) with 1. lia.
  - change (fold_left (fun t x => 256 * t + x) (x :: l) a) with (fold_left (fun t x => 256 * t + x) l (256 * a + x)).
    change (fold_left (fun t x => 256 * t + x) (x :: l) 0) with (fold_left (fun t x => 256 * t + x) l (256 * 0 + x)).
    rewrite (IH (256 * a + x)), (IH (256 * 0 + x)).
    replace (Z.of_nat (length (x :: l))) with (Z.of_nat (length l) + 1) by (simpl length; lia).
    rewrite Z.pow_add_r by lia. change (256 ^ 1) with 256. ring.
Qed.
Lemma from_be_app : forall a b, from_be (a ++ b) = from_be a * 256 ^ Z.of_nat (length b) + from_be b.
Proof. intros. unfold from_be at 1. rewrite fold_left_app. fold (from_be a). apply fold_be. Qed.
Lemma from_be_be : forall k x, 0 <= x < 256 ^ Z.of_nat k -> from_be (be k x) = x.
Proof.
  unfold be. induction k; intros x H.
  - change (256 ^ Z.of_nat 0) with 1 in H. simpl. unfold from_be. simpl. lia.
  - simpl le. simpl rev. rewrite from_be_app. rewrite IHk.
    + change (Z.of_nat (length [x mod 256])) with 1. change (256 ^ 1) with 256.
      unfold from_be. simpl fold_left. rewrite Z.mul_0_r || idtac.
      pose proof (Z.div_mod x 256 ltac:(lia)). lia.
    + replace (Z.of_nat (S k)) with (Z.of_nat k + 1) in H by lia. rewrite Z.pow_add_r in H by lia.
      change (256 ^ 1) with 256 in H. split; [apply Z.div_pos; lia | apply Z.div_lt_upper_bound; lia].
Qed.
Lemma from_be_range : forall l, is_bytes l = true -> 0 <= from_be l < 256 ^ Z.of_nat (length l).
Proof.
  induction l as [|x l IH] using rev_ind; intros H.
  - unfold from_be. simpl fold_left. change (256 ^ Z.of_nat (length (@nil Z))) with 1. lia.
  - unfold is_bytes in H. rewrite forallb_app in H. apply andb_true_iff in H. destruct H as [H1 H2].
    simpl in H2. rewrite andb_true_r in H2. unfold is_byte in H2. apply andb_true_iff in H2. destruct H2 as [H2 H3].
    apply Z.leb_le in H2. apply Z.ltb_lt in H3. specialize (IH H1).
    rewrite from_be_app, app_length. change (Z.of_nat (length [x])) with 1.
    replace (Z.of_nat (length l + length [x])) with (Z.of_nat (length l) + 1) by (simpl length; lia).
    rewrite Z.pow_add_r by lia. change (256 ^ 1) with 256.
    replace (from_be [x]) with x by (unfold from_be; simpl; lia). nia.
Qed.
Lemma be_from_be : forall l, is_bytes l = true -> be (length l) (from_be l) = l.
Proof.
  induction l as [|x l IH] using rev_ind; intros H; [reflexivity|].
  unfold is_bytes in H. rewrite forallb_app in H. apply andb_true_iff in H. destruct H as [H1 H2].
  simpl in H2. rewrite andb_true_r in H2. unfold is_byte in H2. apply andb_true_iff in H2. destruct H2 as [H2 H3].
  apply Z.leb_le in H2. apply Z.ltb_lt in H3.
  rewrite app_length. replace (length l + length [x])%nat with (S (length l)) by (simpl length; lia).
  rewrite from_be_app. change (Z.of_nat (length [x])) with 1. change (256 ^ 1) with 256.
  replace (from_be [x]) with x by (unfold from_be; simpl; lia).
  unfold be. simpl le. simpl rev.
  replace ((from_be l * 256 + x) / 256) with (from_be l) by (rewrite Z.div_add_l by lia; rewrite Z.div_small by lia; lia).
  replace ((from_be l * 256 + x) mod 256) with x
    by (rewrite Z.add_comm, Z.mod_add by lia; rewrite Z.mod_small by lia; reflexivity).
  f_equal. apply IH. exact H1.
Qed.
Lemma be_inj : forall k x y, 0 <= x < 256 ^ Z.of_nat k -> 0 <= y < 256 ^ Z.of_nat k -> be k x = be k y -> x = y.
Proof. intros. rewrite <- (from_be_be k x), <- (from_be_be k y) by assumption. congruence. Qed.
Lemma to_be_ok : forall k x b, to_be k x = Ok b <-> 0 <= x < 256 ^ Z.of_nat k /\ b = be k x.
Proof.
  intros. unfold to_be. destruct ((0 <=? x) && (x <? 256 ^ Z.of_nat k)) eqn:E.
  - apply andb_true_iff in E. destruct E as [E1 E2]. apply Z.leb_le in E1. apply Z.ltb_lt in E2.
    split; [intros H; injection H as <-; auto | intros [_ ->]; reflexivity].
  - split; [discriminate|]. intros [H _]. apply andb_false_iff in E.
    destruct E as [E|E]; [apply Z.leb_gt in E | apply Z.ltb_ge in E]; lia.
Qed.

Lemma of_opt_ok : forall A (o : option A) e x, of_opt o e = Ok x -> o = Some x.
Proof. intros A [y|] e x H; simpl in H; [injection H as <-; reflexivity | discriminate]. Qed.

(** ** Parameter sets, enumerated *)
Definition lms_sets : list lset :=
  flat_map (fun f => flat_map (fun n => map (fun h => {| ls_shake := f; ls_n := n; ls_w := 1; ls_h := h |})
    [5; 10; 15; 20; 25]) [24; 32]) [false; true].
Definition ots_sets : list lset :=
  flat_map (fun f => flat_map (fun n => map (fun w => {| ls_shake := f; ls_n := n; ls_w := w; ls_h := 5 |})
    [1; 2; 4; 8]) [24; 32]) [false; true].
Definition all_sets : list lset :=
  flat_map (fun f => flat_map (fun n => flat_map (fun h => map (fun w =>
    {| ls_shake := f; ls_n := n; ls_w := w; ls_h := h |}) [1; 2; 4; 8]) [5; 10; 15; 20; 25]) [24; 32]) [false; true].

Lemma in_all : forall s, valid_set s <-> In s all_sets.
Proof.
  intros [f n w h]. unfold valid_set, all_sets. simpl ls_n. simpl ls_w. simpl ls_h.
  rewrite in_flat_map. split.
  - intros [H1 [H2 H3]]. exists f. split; [destruct f; simpl; auto|].
    apply in_flat_map. exists n. split; [exact H1|]. apply in_flat_map. exists h. split; [exact H3|].
    apply in_map_iff. exists w. split; [reflexivity | exact H2].
  - intros [f' [_ H]]. apply in_flat_map in H. destruct H as [n' [Hn H]]. apply in_flat_map in H.
    destruct H as [h' [Hh H]]. apply in_map_iff in H. destruct H as [w' [E Hw]]. injection E as <- <- <- <-. auto.
Qed.
Lemma all_sets_forall : forall P : lset -> Prop, Forall P all_sets -> forall s, valid_set s -> P s.
Proof. intros P H s V. rewrite Forall_forall in H. apply H. apply in_all. exact V. Qed.

Definition spec_details (s : lset) : details :=
  {| d_hash := fam_name (ls_shake s); d_lms := be 4 (lms_code s); d_lmots := be 4 (ots_code s);
     d_h := ls_h s; d_w := ls_w s; d_n := ls_n s;
     d_ots_len := 4 + ls_n s * (chain_count s + 1);
     d_sig_len := 4 + (4 + ls_n s * (chain_count s + 1)) + 4 + ls_h s * ls_n s;
     d_pub_len := 8 + 16 + ls_n s; d_max := 2 ^ ls_h s |}.

Lemma lms_table_eq : lms_table = map (fun s => (lms_name s, (fam_name (ls_shake s), ls_n s, ls_h s))) lms_sets.
Proof. vm_compute. reflexivity. Qed.
Lemma lmots_table_eq : lmots_table = map (fun s => (ots_name s, (fam_name (ls_shake s), ls_n s, ls_w s))) ots_sets.
Proof. vm_compute. reflexivity. Qed.
Lemma hss_algorithms_eq : hss_algorithms = map (fun s => (set_name s, spec_details s)) all_sets.
Proof. vm_compute. reflexivity. Qed.

Lemma find_unique : forall A (l : list A) (f : A -> string) x,
  NoDup (map f l) -> In x l -> find (fun y => String.eqb (f y) (f x)) l = Some x.
Proof.
  induction l as [|y l IH]; intros f x ND I; [contradiction|]. simpl in ND. inversion ND as [|? ? N1 N2]; subst. simpl.
  destruct (String.eqb (f y) (f x)) eqn:E.
  - apply String.eqb_eq in E. destruct I as [->|I]; [reflexivity|]. exfalso. apply N1. rewrite E. apply in_map. exact I.
  - destruct I as [->|I]; [rewrite String.eqb_refl in E; discriminate|]. apply IH; assumption.
Qed.
Fixpoint nodupb (l : list string) : bool :=
  match l with [] => true | x :: r => negb (existsb (String.eqb x) r) && nodupb r end.
Lemma nodupb_ok : forall l, nodupb l = true -> NoDup l.
Proof.
  induction l as [|x l IH]; intros H; [constructor|]. simpl in H. apply andb_true_iff in H. destruct H as [H1 H2].
  constructor; [|apply IH; exact H2]. intros I. apply negb_true_iff in H1.
  assert (existsb (String.eqb x) l = true); [|congruence]. apply existsb_exists. exists x. split; [exact I | apply String.eqb_refl].
Qed.
Lemma set_names_nodup : NoDup (map set_name all_sets).
Proof. apply nodupb_ok. vm_compute. reflexivity. Qed.

Lemma lookup_some : forall A (l : list (string * A)) x y, lookup l x = Some y -> In (x, y) l.
Proof.
  unfold lookup. intros A l x y H. destruct (find _ l) as [p|] eqn:E; [|discriminate]. injection H as <-.
  apply find_some in E. destruct E as [E1 E2]. apply String.eqb_eq in E2. destruct p; simpl in *; subst. exact E1.
Qed.
Lemma hss_details_ok : forall s, valid_set s -> hss_details (set_name s) = Some (spec_details s).
Proof.
  intros s V. unfold hss_details, lookup. rewrite hss_algorithms_eq.
  assert (F : find (fun p : string * details => String.eqb (fst p) (set_name s))
                (map (fun s => (set_name s, spec_details s)) all_sets) = Some (set_name s, spec_details s)).
  { apply in_all in V. pose proof (find_unique _ all_sets set_name s set_names_nodup V) as F.
    clear V. revert F. generalize all_sets as l. induction l as [|y l IH]; intros F; [discriminate|].
    cbn [find map fst] in *. destruct (String.eqb (set_name y) (set_name s)); [|apply IH; exact F].
    assert (y = s) by congruence. subst. reflexivity. }
  rewrite F. reflexivity.
Qed.
Lemma hss_details_some : forall name d, hss_details name = Some d -> exists s, valid_set s /\ name = set_name s /\ d = spec_details s.
Proof.
  intros name d H. unfold hss_details in H. apply lookup_some in H. rewrite hss_algorithms_eq in H.
  apply in_map_iff in H. destruct H as [s [E I]]. injection E as <- <-. exists s. split; [apply in_all; exact I|auto].
Qed.
Lemma set_name_inj : forall s t, valid_set s -> valid_set t -> set_name s = set_name t -> s = t.
Proof.
  intros s t V W E. apply in_all in V. apply in_all in W.
  pose proof (find_unique _ all_sets set_name s set_names_nodup V) as F1.
  pose proof (find_unique _ all_sets set_name t set_names_nodup W) as F2. rewrite E in F1. congruence.
Qed.

(** ** Reading names *)
Lemma parse_lms_tab : forallb (fun s => match parse_lms (lms_name s) with
  | Ok (f, n, h) => String.eqb f (fam_name (ls_shake s)) && (n =? ls_n s) && (h =? ls_h s) | Err _ => false end) lms_sets = true.
Proof. vm_compute. reflexivity. Qed.
Lemma parse_ots_tab : forallb (fun s => match parse_lmots (ots_name s) with
  | Ok (f, n, w) => String.eqb f (fam_name (ls_shake s)) && (n =? ls_n s) && (w =? ls_w s) | Err _ => false end) ots_sets = true.
Proof. vm_compute. reflexivity. Qed.

Definition with_w (w : Z) (s : lset) : lset := {| ls_shake := ls_shake s; ls_n := ls_n s; ls_w := w; ls_h := ls_h s |}.
Definition with_h (h : Z) (s : lset) : lset := {| ls_shake := ls_shake s; ls_n := ls_n s; ls_w := ls_w s; ls_h := h |}.
Lemma in_lms : forall s, valid_set s -> In (with_w 1 s) lms_sets.
Proof.
  intros [f n w h] [H1 [_ H3]]. unfold lms_sets, with_w. simpl ls_n in *. simpl ls_h in *. apply in_flat_map.
  exists f. split; [destruct f; simpl; auto|]. apply in_flat_map. exists n. split; [exact H1|].
  apply in_map_iff. exists h. split; [reflexivity | exact H3].
Qed.
Lemma in_ots : forall s, valid_set s -> In (with_h 5 s) ots_sets.
Proof.
  intros [f n w h] [H1 [H2 _]]. unfold ots_sets, with_h. simpl ls_n in *. simpl ls_w in *. apply in_flat_map.
  exists f. split; [destruct f; simpl; auto|]. apply in_flat_map. exists n. split; [exact H1|].
  apply in_map_iff. exists w. split; [reflexivity | exact H2].
Qed.
Lemma lms_sets_valid : forall s, In s lms_sets -> valid_set s /\ ls_w s = 1.
Proof.
  intros s H. unfold lms_sets in H. apply in_flat_map in H. destruct H as [f [_ H]]. apply in_flat_map in H.
  destruct H as [n [Hn H]]. apply in_map_iff in H. destruct H as [h [<- Hh]]. unfold valid_set. simpl. simpl in Hn, Hh. auto 10.
Qed.
Lemma ots_sets_valid : forall s, In s ots_sets -> valid_set s /\ ls_h s = 5.
Proof.
  intros s H. unfold ots_sets in H. apply in_flat_map in H. destruct H as [f [_ H]]. apply in_flat_map in H.
  destruct H as [n [Hn H]]. apply in_map_iff in H. destruct H as [w [<- Hw]]. unfold valid_set. simpl. simpl in Hn, Hw. auto 10.
Qed.
Lemma parse_lms_name : forall s, valid_set s -> parse_lms (lms_name s) = Ok (fam_name (ls_shake s), ls_n s, ls_h s).
Proof.
  intros s V. pose proof parse_lms_tab as T. rewrite forallb_forall in T. specialize (T _ (in_lms s V)).
  change (lms_name (with_w 1 s)) with (lms_name s) in T. destruct (parse_lms (lms_name s)) as [[[f n] h]|]; [|discriminate].
  apply andb_true_iff in T. destruct T as [T T3]. apply andb_true_iff in T. destruct T as [T1 T2].
  apply String.eqb_eq in T1. apply Z.eqb_eq in T2. apply Z.eqb_eq in T3. simpl in *. subst. reflexivity.
Qed.
Lemma parse_ots_name : forall s, valid_set s -> parse_lmots (ots_name s) = Ok (fam_name (ls_shake s), ls_n s, ls_w s).
Proof.
  intros s V. pose proof parse_ots_tab as T. rewrite forallb_forall in T. specialize (T _ (in_ots s V)).
  change (ots_name (with_h 5 s)) with (ots_name s) in T. destruct (parse_lmots (ots_name s)) as [[[f n] w]|]; [|discriminate].
  apply andb_true_iff in T. destruct T as [T T3]. apply andb_true_iff in T. destruct T as [T1 T2].
  apply String.eqb_eq in T1. apply Z.eqb_eq in T2. apply Z.eqb_eq in T3. simpl in *. subst. reflexivity.
Qed.
Lemma known_lms : forall x, existsb (String.eqb x) (map fst lms_table) = true <-> exists s, valid_set s /\ x = lms_name s.
Proof.
  intros x. rewrite lms_table_eq, map_map, existsb_exists. split.
  - intros [y [I E]]. apply String.eqb_eq in E. subst y. apply in_map_iff in I. destruct I as [s [<- I]].
    exists s. split; [apply (lms_sets_valid s I) | reflexivity].
  - intros [s [V ->]]. exists (lms_name s). split; [|apply String.eqb_refl]. apply in_map_iff.
    exists (with_w 1 s). split; [reflexivity | apply in_lms; exact V].
Qed.
Lemma known_ots : forall x, existsb (String.eqb x) (map fst lmots_table) = true <-> exists s, valid_set s /\ x = ots_name s.
Proof.
  intros x. rewrite lmots_table_eq, map_map, existsb_exists. split.
  - intros [y [I E]]. apply String.eqb_eq in E. subst y. apply in_map_iff in I. destruct I as [s [<- I]].
    exists s. split; [apply (ots_sets_valid s I) | reflexivity].
  - intros [s [V ->]]. exists (ots_name s). split; [|apply String.eqb_refl]. apply in_map_iff.
    exists (with_h 5 s). split; [reflexivity | apply in_ots; exact V].
Qed.
Lemma fam_name_inj : forall a b, fam_name a = fam_name b -> a = b.
Proof. intros [] []; simpl; congruence. Qed.
Lemma fam_eqb : forall a b, String.eqb (fam_name a) (fam_name b) = Bool.eqb a b.
Proof. intros [] []; reflexivity. Qed.
