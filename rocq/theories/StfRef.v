(** A parser of HSS encodings, to show that the assumptions made about the library can be met. *)
From Coq Require Import String Ascii Arith.
From Verif Require Import Prelude PreludeFacts StfModel StfSpec StfProofs StfHss StfMore.
Open Scope Z_scope.
Local Notation length := List.length.

Definition rd (k : nat) (b : bytes) : option (bytes * bytes) :=
  if (length b <? k)%nat then None else Some (firstn k b, skipn k b).
Lemma rd_app : forall k a b, length a = k -> rd k (a ++ b) = Some (a, b).
Proof.
  intros k a b H. unfold rd. replace (length (a ++ b) <? k)%nat with false by (symmetry; apply Nat.ltb_ge; rewrite app_length; lia).
  rewrite (firstn_app_exact _ _ _ _ H), (skipn_app_exact _ _ _ _ H). reflexivity.
Qed.
Definition obind {A B} (o : option A) (f : A -> option B) : option B := match o with Some x => f x | None => None end.
Notation "'let?' x := a 'in' b" := (obind a (fun x => b)) (at level 200, x pattern, a at level 100, b at level 200).

Definition ots_of (c : bytes) : option lset := find (fun s => bytes_eqb (be 4 (ots_code s)) c) ots_sets.
Definition lms_of (c : bytes) : option lset := find (fun s => bytes_eqb (be 4 (lms_code s)) c) lms_sets.
Definition rd_sig (b : bytes) : option (Z * bytes) :=
  let? (q, b) := rd 4 b in let? (c, b) := rd 4 b in let? s := ots_of c in
  let? (_, b) := rd (nlen (ls_n s * (chain_count s + 1))) b in
  let? (c', b) := rd 4 b in let? t := lms_of c' in
  let? (_, b) := rd (nlen (ls_h t * ls_n t)) b in Some (from_be q, b).
Definition rd_pub (b : bytes) : option (bytes * bytes * bytes) :=
  let? (c, b) := rd 4 b in let? (c', b) := rd 4 b in let? (_, b) := rd 16 b in let? s := lms_of c in
  let? (_, b) := rd (nlen (ls_n s)) b in Some (c, c', b).
Fixpoint rd_ups (k : nat) (b : bytes) : option (list Z * bytes) :=
  match k with
  | O => Some ([], b)
  | Datatypes.S k' => let? (q, b) := rd_sig b in let? (_, _, b) := rd_pub b in let? (l, b) := rd_ups k' b in Some (q :: l, b)
  end.
Definition rd_hss (b : bytes) : option (Z * list Z * Z) :=
  let? (c, b) := rd 4 b in let k := Z.to_nat (from_be c) in
  if (7 <? k)%nat then None else
  let? (l, b) := rd_ups k b in let? (q, b) := rd_sig b in
  match b with [] => Some (Z.of_nat k + 1, l, q) | _ => None end.
Definition rd_key (b : bytes) : option (Z * bytes * bytes) :=
  let? (c, b) := rd 4 b in let? (a, a', b) := rd_pub b in match b with [] => Some (from_be c, a, a') | _ => None end.

Lemma ots_of_tab : forallb (fun s => match ots_of (be 4 (ots_code s)) with
  | Some t => (ls_n t =? ls_n s) && (ls_w t =? ls_w s) | None => false end) ots_sets = true.
Proof. vm_compute. reflexivity. Qed.
Lemma lms_of_tab : forallb (fun s => match lms_of (be 4 (lms_code s)) with
  | Some t => (ls_n t =? ls_n s) && (ls_h t =? ls_h s) | None => false end) lms_sets = true.
Proof. vm_compute. reflexivity. Qed.
Lemma ots_of_ok : forall s, valid_set s -> exists t, ots_of (be 4 (ots_code s)) = Some t /\ ls_n t = ls_n s /\ chain_count t = chain_count s.
Proof.
  intros s V. pose proof ots_of_tab as T. rewrite forallb_forall in T. specialize (T _ (in_ots s V)).
  change (ots_code (with_h 5 s)) with (ots_code s) in T. destruct (ots_of (be 4 (ots_code s))) as [t|]; [|discriminate].
  apply andb_true_iff in T. destruct T as [T1 T2]. apply Z.eqb_eq in T1. apply Z.eqb_eq in T2. change (ls_n (with_h 5 s)) with (ls_n s) in T1.
  change (ls_w (with_h 5 s)) with (ls_w s) in T2. exists t. split; [reflexivity|]. split; [exact T1|]. unfold chain_count. rewrite T1, T2. reflexivity.
Qed.
Lemma lms_of_ok : forall s, valid_set s -> exists t, lms_of (be 4 (lms_code s)) = Some t /\ ls_n t = ls_n s /\ ls_h t = ls_h s.
Proof.
  intros s V. pose proof lms_of_tab as T. rewrite forallb_forall in T. specialize (T _ (in_lms s V)).
  change (lms_code (with_w 1 s)) with (lms_code s) in T. destruct (lms_of (be 4 (lms_code s))) as [t|]; [|discriminate].
  apply andb_true_iff in T. destruct T as [T1 T2]. apply Z.eqb_eq in T1. apply Z.eqb_eq in T2. exists t. auto.
Qed.
Lemma rd_sig_ok : forall g b, wf_sig g -> rd_sig (sig_wire g ++ b) = Some (s_q g, b).
Proof.
  intros g b [V [Hq [H1 H2]]]. unfold rd_sig, sig_wire. rewrite <- !app_assoc.
  rewrite rd_app by apply be_len. cbn [obind]. rewrite rd_app by apply be_len. cbn [obind].
  destruct (ots_of_ok _ V) as [t [-> [N C]]]. cbn [obind]. rewrite N, C. rewrite rd_app by exact H1. cbn [obind].
  rewrite rd_app by apply be_len. cbn [obind]. destruct (lms_of_ok _ V) as [t' [-> [N' H']]]. cbn [obind]. rewrite N', H'.
  rewrite rd_app by exact H2. cbn [obind]. rewrite from_be_be by (change (256 ^ Z.of_nat 4) with (2 ^ 32); exact Hq). reflexivity.
Qed.
Lemma rd_pub_ok : forall p b, wf_pub p -> rd_pub (pub_wire p ++ b) = Some (be 4 (lms_code (p_set p)), be 4 (ots_code (p_set p)), b).
Proof.
  intros p b [V [H1 H2]]. unfold rd_pub, pub_wire. rewrite <- !app_assoc. rewrite rd_app by apply be_len. cbn [obind].
  rewrite rd_app by apply be_len. cbn [obind]. rewrite rd_app by exact H1. cbn [obind].
  destruct (lms_of_ok _ V) as [t [-> [N _]]]. cbn [obind]. rewrite N, rd_app by exact H2. reflexivity.
Qed.
Lemma rd_ups_ok : forall l b, Forall (fun p => wf_sig (fst p) /\ wf_pub (snd p)) l ->
  rd_ups (length l) (concat (map (fun p => sig_wire (fst p) ++ pub_wire (snd p)) l) ++ b) = Some (map (fun p => s_q (fst p)) l, b).
Proof.
  induction l as [|p l IH]; intros b H; [reflexivity|]. inversion H as [|? ? [A B] C]; subst. cbn [length rd_ups map concat].
  rewrite <- !app_assoc. rewrite rd_sig_ok by assumption. cbn [obind]. rewrite rd_pub_ok by assumption. cbn [obind].
  rewrite IH by assumption. reflexivity.
Qed.

(** Private keys: the number of levels and 60 bytes for each tree. *)
Definition ser_tree (t : tree) : bytes := t_lms t ++ t_lmots t ++ be 4 (t_q t) ++ t_rest t.
Definition rd_tree (b : bytes) : option (tree * bytes) :=
  let? (a, b) := rd 4 b in let? (c, b) := rd 4 b in let? (q, b) := rd 4 b in let? (r, b) := rd 48 b in
  Some ({| t_lms := a; t_lmots := c; t_q := from_be q; t_rest := r |}, b).
Fixpoint rd_trees (k : nat) (b : bytes) : option (list tree) :=
  match k with
  | O => match b with [] => Some [] | _ => None end
  | Datatypes.S k' => let? (t, b) := rd_tree b in let? l := rd_trees k' b in Some (t :: l)
  end.
Definition ser_state (st : Z * list tree) : bytes := be 4 (fst st) ++ concat (map ser_tree (snd st)).
Definition rd_state (b : bytes) : option (Z * list tree) :=
  let? (c, b) := rd 4 b in let? l := rd_trees (Z.to_nat (from_be c)) b in Some (from_be c, l).
Definition height_of (t : tree) : Z := match lms_of (t_lms t) with Some s => ls_h s | None => 0 end.

Definition ref_lib : hss_lib := {|
  hl_pub := rd_key; hl_sig := rd_hss; hl_prv := rd_state; hl_ser := ser_state;
  hl_pub_of := fun st => match snd st with [] => [] | t :: _ => be 4 (fst st) ++ t_lms t ++ t_lmots t ++ t_rest t end;
  hl_max := fun st => fold_right (fun t a => 2 ^ height_of t * a) 1 (snd st);
  hl_tree_max := fun t => 2 ^ height_of t |}.

Lemma ref_signatures : reads_signatures ref_lib.
Proof.
  intros g [HL [H1 H2]]. change (hl_sig ref_lib) with rd_hss. unfold rd_hss, hss_wire. rewrite rd_app by apply be_len. cbn [obind]. cbv zeta.
  rewrite from_be_be by (change (256 ^ Z.of_nat 4) with (2 ^ 32); lia). rewrite Nat2Z.id.
  replace (7 <? length (h_ups g))%nat with false by (symmetry; apply Nat.ltb_ge; lia).
  rewrite rd_ups_ok by assumption. cbn [obind]. rewrite <- (app_nil_r (sig_wire (h_last g))), rd_sig_ok by assumption. reflexivity.
Qed.
Lemma ref_public_keys : reads_public_keys ref_lib.
Proof.
  intros lv p H W. change (hl_pub ref_lib) with rd_key. unfold rd_key, hss_pub_wire. rewrite rd_app by apply be_len. cbn [obind].
  rewrite <- (app_nil_r (pub_wire p)), rd_pub_ok by assumption. cbn [obind].
  rewrite from_be_be by (change (256 ^ Z.of_nat 4) with (2 ^ 32); lia). reflexivity.
Qed.
Lemma height_ok : forall s t, valid_set s -> tree_of s t -> height_of t = ls_h s.
Proof. intros s t V [H _]. unfold height_of. rewrite H. destruct (lms_of_ok s V) as [u [-> [_ E]]]. exact E. Qed.
Lemma rd_trees_ok : forall ss ts, Forall valid_set ss -> Forall2 tree_of ss ts -> rd_trees (length ts) (concat (map ser_tree ts)) = Some ts.
Proof.
  induction 2 as [|s t ss ts Ht HF IH]; [reflexivity|]. inversion H; subst. destruct Ht as [T1 [T2 [T3 T4]]].
  cbn [length rd_trees map concat]. unfold rd_tree, ser_tree at 1. rewrite <- !app_assoc.
  rewrite rd_app by (rewrite T1; apply be_len). cbn [obind]. rewrite rd_app by (rewrite T2; apply be_len). cbn [obind].
  rewrite rd_app by apply be_len. cbn [obind]. rewrite rd_app by exact T4. cbn [obind]. rewrite IH by assumption. cbn [obind].
  assert (B : 2 ^ ls_h s < 256 ^ Z.of_nat 4).
  { assert (V : valid_set s) by assumption. destruct V as [_ [_ V]]. simpl in V. destruct V as [<-|[<-|[<-|[<-|[<-|[]]]]]]; reflexivity. }
  rewrite from_be_be by lia. destruct t. reflexivity.
Qed.
Lemma ref_keys : keeps_keys ref_lib.
Proof.
  split; [|split].
  - intros ss [lv ts] [HL [HB [HV HF]]]. cbn [fst snd] in *. change (hl_prv ref_lib (hl_ser ref_lib (lv, ts))) with (rd_state (ser_state (lv, ts))).
    unfold rd_state, ser_state. cbn [fst snd]. rewrite rd_app by apply be_len. cbn [obind].
    rewrite from_be_be by (change (256 ^ Z.of_nat 4) with (2 ^ 32); lia). rewrite HL, Nat2Z.id, (rd_trees_ok ss ts HV HF). reflexivity.
  - intros ss [lv ts] [HL [HB [HV HF]]]. cbn [fst snd] in *. cbn [hl_max ref_lib snd]. clear HL HB. induction HF as [|s t ss ts Ht HF IH]; [reflexivity|].
    inversion HV; subst. cbn [fold_right capacity]. rewrite (height_ok s t) by assumption. f_equal. apply IH. assumption.
  - intros s t V Ht. cbn [hl_tree_max ref_lib]. rewrite (height_ok s t V Ht). reflexivity.
Qed.

(** ** Positions *)
Lemma prod_const : forall r l, Forall (fun p : Z * Z => fst p = r) l -> fold_right (fun p a => fst p * a) 1 l = r ^ Z.of_nat (length l).
Proof.
  induction l as [|p l IH]; intros H; [reflexivity|]. inversion H; subst. cbn [fold_right length]. rewrite IH by assumption.
  rewrite Nat2Z.inj_succ, Z.pow_succ_r by lia. reflexivity.
Qed.
Lemma position_radix : forall r l, Forall (fun p : Z * Z => fst p = r) l -> position l = radix r (map snd l).
Proof.
  induction l as [|[a q] l IH]; intros H; [reflexivity|]. inversion H as [|? ? E F]. cbn [position map snd radix fst]. rewrite (prod_const r l F), (IH F), map_length. reflexivity.
Qed.
Lemma tree_leaves_snd : forall g, map snd (tree_leaves g) = leaves g.
Proof. intros. unfold tree_leaves, leaves. rewrite map_app, map_map. reflexivity. Qed.
Lemma uniform_sizes : forall s g, uniform s g -> Forall (fun p => fst p = 2 ^ ls_h s) (tree_leaves g).
Proof.
  intros s g [U1 U2]. unfold tree_leaves. apply Forall_app. split.
  - apply Forall_map. eapply Forall_impl; [|exact U1]. intros p [E _]. cbn [fst]. rewrite E. reflexivity.
  - constructor; [|constructor]. cbn [fst]. rewrite U2. reflexivity.
Qed.
Lemma uniform_fit : forall s g, uniform s g -> wf_hss g -> (leaves_fit g <-> Forall (fun q => 0 <= q < 2 ^ ls_h s) (leaves g)).
Proof.
  intros s g U W. unfold leaves_fit. rewrite <- tree_leaves_snd. rewrite Forall_map. pose proof (uniform_sizes s g U) as E. rewrite !Forall_forall in *.
  split; intros H p I; specialize (H p I); rewrite (E p I) in *; exact H.
Qed.
Lemma leaves_nonneg : forall g, wf_hss g -> Forall (fun q => 0 <= q) (leaves g).
Proof.
  intros g [_ [H1 [_ [H2 _]]]]. unfold leaves. apply Forall_app. split; [|constructor; [lia|constructor]].
  apply Forall_map. eapply Forall_impl; [|exact H1]. intros p [[_ [H _]] _]. lia.
Qed.
