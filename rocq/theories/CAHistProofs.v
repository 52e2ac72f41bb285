(** Histories: the database, pending confirmations and recorded certificates
    (C01-C05 at system level, C15, C47). *)
From Verif Require Export CATxProofs.
From Verif Require Import CADbProofs.
Local Open Scope Z_scope.

Section Hist.
Variable w : world.
Local Notation H := (w_H w).

Lemma part_contains m q : part m q <-> contains m q.
Proof. split; induction 1; econstructor; eauto. Qed.

(** *** The database evolves by its two operations only *)
Definition caused (v : env) (m : msg) (o : db_op) : Prop :=
  exists q s, part m q /\ db_cause v q s o.

Lemma prim_db v q s s' : prim w v q s s' ->
  s_db s' = s_db s \/ exists o, db_cause v q s o /\ db_call H (s_db s) o = Ok (s_db s').
Proof. intros P. destruct P; cbn; auto. right. eauto. Qed.

Lemma db_run_app d a b : db_run H d (a ++ b) = db_run H (db_run H d a) b.
Proof. unfold db_run. apply fold_left_app. Qed.

Lemma tree_db v m s s' : tree w v m s s' ->
  exists ops, s_db s' = db_run H (s_db s) ops /\ Forall (caused v m) ops.
Proof.
  intros T. induction T as [a b (q & Hq & P) | a | a b c _ (o1 & E1 & F1) _ (o2 & E2 & F2)].
  - apply prim_db in P. destruct P as [E | (o & Hc & E)].
    + exists []. split; [exact E | constructor].
    + exists [o]. split; [cbn; unfold db_step; now rewrite E |]. constructor; [exists q, a; auto | constructor].
  - exists []. split; [reflexivity | constructor].
  - exists (o1 ++ o2). split; [now rewrite db_run_app, <- E1 | now apply Forall_app].
Qed.

Lemma run_app s a b : run w s (a ++ b) = run w (run w s a) b.
Proof. unfold run. apply fold_left_app. Qed.

Lemma run_db h : forall s, exists ops,
  s_db (run w s h) = db_run H (s_db s) ops /\ Forall (fun o => exists m v, In (m, v) h /\ caused v m o) ops.
Proof.
  induction h as [| [m v] h IH]; intros s.
  - exists []. split; [reflexivity | constructor].
  - cbn [run fold_left]. destruct (tree_db _ _ _ _ (step_tree w s m v)) as (o1 & E1 & F1).
    destruct (IH (fst (step w s (m, v)))) as (o2 & E2 & F2).
    exists (o1 ++ o2). split; [rewrite db_run_app, <- E1; exact E2 |].
    apply Forall_app. split.
    + eapply Forall_impl; [| exact F1]. intros o Ho. exists m, v. split; [now left | exact Ho].
    + eapply Forall_impl; [| exact F2]. intros o (m' & v' & Hi & Ho). exists m', v'. split; [now right | exact Ho].
Qed.

Lemma after_db h : exists ops, s_db (after w h) = db_run H db_init ops.
Proof. destruct (run_db h ca_init) as (ops & E & _). exists ops. exact E. Qed.

Lemma after_known h : no_unknown (s_db (after w h)).
Proof. destruct (after_db h) as (ops & ->). apply no_unknown_run, no_unknown_init. Qed.

Lemma run_extends h s : extends (db_certs (s_db s)) (db_certs (s_db (run w s h))).
Proof. destruct (run_db h s) as (ops & -> & _). apply extends_run. Qed.

Lemma add_keeps_state d c c' s now d' : add_cert H d c s now = Ok d' ->
  no_unknown d -> get_cert_state H d c' <> UNKNOWN -> get_cert_state H d' c' = get_cert_state H d c'.
Proof.
  intros E Hd N. apply add_ok_shape in E. destruct E as (_ & e & -> & _).
  unfold get_cert_state, get_cert in *. cbn [db_certs with_certs]. rewrite get_by_digest_app.
  destruct (get_by_digest (db_certs d) (H c')); [reflexivity | contradiction].
Qed.

Lemma check_if_used_implicit q enc : check_if_used q enc = true -> m_implicit q = true.
Proof.
  unfold check_if_used. destruct (m_body q); try discriminate; auto;
    intros E; apply Bool.andb_true_iff in E; apply E.
Qed.

Lemma tree_authority v m s s' c : tree w v m s s' -> no_unknown (s_db s) ->
  get_cert_state H (s_db s') c <> get_cert_state H (s_db s) c ->
  authority w m c (get_cert_state H (s_db s) c) (get_cert_state H (s_db s') c).
Proof.
  intros T K N. destruct (tree_db _ _ _ _ T) as (ops & E & F). clear T. rewrite E in *.
  (* strengthen: induct on the operations, carrying the first state *)
  set (old := get_cert_state H (s_db s) c) in *.
  assert (G : forall ops d, no_unknown d -> Forall (caused v m) ops ->
     get_cert_state H (db_run H d ops) c <> get_cert_state H d c ->
     authority w m c (get_cert_state H d c) (get_cert_state H (db_run H d ops) c)).
  { clear. induction ops as [| o ops IH] using rev_ind; intros d K F N; [contradiction |].
    apply Forall_app in F. destruct F as [F F2]. inversion F2 as [| ? ? (q & s0 & Hq & Hc) _]; subst. clear F2.
    rewrite db_run_app in *. change (db_run H (db_run H d ops) [o]) with (db_step H (db_run H d ops) o) in *.
    assert (K2 : no_unknown (db_run H d ops)) by now apply no_unknown_run.
    destruct (step_lifecycle H (db_run H d ops) o c K2) as [E | (He & Hok & Hh & Ht)].
    { rewrite E in *. now apply IH. }
    destruct (state_eqb (get_cert_state H (db_step H (db_run H d ops) o) c) (get_cert_state H (db_run H d ops) c)) eqn:Es.
    { apply CADbProofs.state_eqb_eq in Es. rewrite Es in *. now apply IH. }
    apply CADbProofs.state_eqb_neq in Es. apply part_contains in Hq.
    set (mid := get_cert_state H (db_run H d ops) c) in *.
    set (new := get_cert_state H (db_step H (db_run H d ops) o) c) in *.
    (* the state before was unknown throughout if [o] added the certificate *)
    assert (Unk : mid = UNKNOWN -> get_cert_state H d c = UNKNOWN).
    { intros Hm. clear -Hm K. subst mid. revert d K Hm. induction ops as [| o ops IH] using rev_ind; intros d K Hm; [exact Hm |].
      apply IH; [exact K |]. rewrite db_run_app in Hm.
      change (db_run H (db_run H d ops) [o]) with (db_step H (db_run H d ops) o) in Hm.
      destruct (step_lifecycle H (db_run H d ops) o c (no_unknown_run H d ops K)) as [E | (He & _)]; [congruence |].
      rewrite Hm in He. inversion He. }
    assert (Add : forall cc st now, o = Add cc st now -> mid = UNKNOWN).
    { intros cc st now ->. unfold mid, new in *. unfold db_step in Es. cbn [db_call] in *.
      destruct (add_cert H (db_run H d ops) cc st now) as [d' |] eqn:Ea; [| discriminate].
      destruct (state_eqb (get_cert_state H (db_run H d ops) c) UNKNOWN) eqn:Eu; [now apply CADbProofs.state_eqb_eq in Eu |].
      apply CADbProofs.state_eqb_neq in Eu. exfalso. apply Es. eapply add_keeps_state; eauto. }
    exists q. split; [exact Hq |].
    destruct Hc as [c0 certs enc Hb Hi Hin | old new0 certs enc Hb Hi Ho Hn | tx c0 certs Hb Htx Hd Hin
                   | tx req r old Hb Htx Hq2 Hr Hrb Ho | c0 r Hb | c0 Hb]; cbn [op_target op_cert] in Ht, Hh;
      rewrite <- Ht.
    - specialize (Add _ _ _ eq_refl). apply Unk in Add.
      destruct (check_if_used q enc) eqn:Ei; [left |]; auto. apply check_if_used_implicit in Ei. auto.
    - destruct (check_if_used q enc) eqn:Ei.
      + left. apply check_if_used_implicit in Ei. split; [exact Hb |]. split; [exact Ei |]. eauto.
      + split; [exact Hb |]. eauto.
    - right. split; [exact Hb |].
      assert (Hm : mid = NOT_CONFIRMED). { cbn [db_call] in Hok. apply change_accepted_iff in Hok. destruct Hok as (e & Ge & Es').
        unfold mid, get_cert_state. unfold get_cert in *. rewrite <- Hh, Ge. exact Es'. }
      clear -Hm K K2 IH F. 
      destruct (state_eqb (get_cert_state H d c) NOT_CONFIRMED) eqn:En; [left; now apply CADbProofs.state_eqb_eq in En |].
      apply CADbProofs.state_eqb_neq in En. right.
      assert (A : authority w m c (get_cert_state H d c) mid). { apply IH; auto. fold mid. congruence. }
      rewrite Hm in A. destruct A as (q & _ & _ & A). exact A.
    - right. exact Hb.
    - exact Hb.
    - exact Hb. }
  apply G; auto.
Qed.

Lemma step_authority h m v c :
  let s := after w h in
  let s' := fst (step w s (m, v)) in
  get_cert_state H (s_db s') c <> get_cert_state H (s_db s) c ->
  authority w m c (get_cert_state H (s_db s) c) (get_cert_state H (s_db s') c).
Proof. cbv zeta. eapply tree_authority; [apply step_tree | apply after_known]. Qed.

(** *** Pending confirmations come from earlier requests of the same transaction *)
Definition from_request (h : history) (tx : bytes) (r : resp) : Prop :=
  exists m v q enc, In (m, v) h /\ contains m q /\ is_cert_req (m_body q) = true /\ m_tx q = Some tx /\
    v_issue v q = Ok (true, r_certs r, enc) /\ r_snonce r = v_nonce v q /\ r_rnonce r = m_snonce q /\
    r_body r = resp_body (m_body q).

Record conf_inv (h : history) (s : ca) : Prop := {
  ci_resp : forall tx r, dget bytes_eqb tx (s_cresp s) = Some r -> from_request h tx r;
  ci_certs : forall tx, ~ In tx (s_confirmed s) ->
     dget bytes_eqb tx (s_ccerts s) = option_map r_certs (dget bytes_eqb tx (s_cresp s));
  ci_nodup : NoDup (map fst (s_ccerts s)) /\ NoDup (map fst (s_cresp s)) /\ NoDup (map fst (s_creq s))
}.

Lemma dget_ddel_some {V} k k' (v : V) d : NoDup (map fst d) ->
  dget bytes_eqb k (ddel bytes_eqb k' d) = Some v -> dget bytes_eqb k d = Some v /\ k <> k'.
Proof.
  intros N E. destruct (bytes_eq_dec k k') as [-> | Hn].
  - rewrite dget_ddel_same in E; [discriminate | apply bytes_eqb_eq | exact N].
  - rewrite dget_ddel_other in E; [auto | apply bytes_eqb_eq | exact Hn].
Qed.

Lemma conf_inv_prim h m v q s s' : In (m, v) h -> part m q -> conf_inv h s -> prim w v q s s' -> conf_inv h s'.
Proof.
  intros Hi Hq [I1 I2 (N1 & N2 & N3)] P. apply part_contains in Hq.
  destruct P as [tx certs enc Ht Hb Hv Hm | tx ss Ht Hb Hs | tx Ht Hp | n tx t Ht Hc Hch Hb | n tx Ht Hb
    | o d Hc Hd | tx Ht Hb | tx r enc Ht Hb Hv Hr Hsn Hrn Hbd | tx Ht Hb | tx Ht Hb | tx Ht Hb Hcf
    | c i l sig _ _ _ _ _ | c i _ _ | certs _];
    constructor; cbn [s_cresp s_ccerts s_creq s_confirmed set_tx set_kem set_chal set_db set_conf set_stfl set_cross]; auto.
  - split; [exact N1 |]. split; [exact N2 |]. apply dset_nodup; [apply bytes_eqb_eq | exact N3].
  - intros tx' r' E. destruct (bytes_eq_dec tx' tx) as [-> | N].
    + rewrite dget_dset_same in E by apply bytes_eqb_eq. injection E as <-.
      exists m, v, q, enc. repeat split; auto.
    + rewrite dget_dset_other in E; [auto | apply bytes_eqb_eq | exact N].
  - intros tx' Hn. destruct (bytes_eq_dec tx' tx) as [-> | N].
    + rewrite !dget_dset_same by apply bytes_eqb_eq. reflexivity.
    + rewrite !dget_dset_other by (exact N || apply bytes_eqb_eq). auto.
  - split; [| split]; [apply dset_nodup | apply dset_nodup |]; auto; apply bytes_eqb_eq.
  - intros tx' Hn. apply I2. intros X. apply Hn, in_or_app. now left.
  - intros tx' r' E. apply dget_ddel_some in E; [| exact N2]. apply I1, E.
  - intros tx' Hn. rewrite dget_ddel_other.
    + apply I2. intros X. apply Hn, in_or_app. now left.
    + apply bytes_eqb_eq.
    + intros ->. apply Hn, in_or_app. right. now left.
  - split; [exact N1 |]. split; apply ddel_nodup; auto; apply bytes_eqb_eq.
  - intros tx' Hn. rewrite dget_ddel_other; [auto | apply bytes_eqb_eq |]. intros ->. contradiction.
  - split; [| split]; auto. apply ddel_nodup; auto.
Qed.

Lemma conf_inv_tree h m v s s' : In (m, v) h -> conf_inv h s -> tree w v m s s' -> conf_inv h s'.
Proof.
  intros Hi I T. induction T as [a b (q & Hq & P) | a | a b c _ I1 _ I2].
  - eapply conf_inv_prim; eauto.
  - exact I.
  - auto.
Qed.

Lemma conf_inv_mono h h' s : incl h h' -> conf_inv h s -> conf_inv h' s.
Proof.
  intros Hi [I1 I2 I3]. constructor; auto. intros tx r E.
  destruct (I1 tx r E) as (m & v & q & enc & A & B). exists m, v, q, enc. auto.
Qed.

Lemma conf_inv_after h : conf_inv h (after w h).
Proof.
  induction h as [| [m v] h IH] using rev_ind.
  - constructor; cbn; try discriminate; auto. repeat split; constructor.
  - unfold after in *. rewrite run_app. cbn [run fold_left].
    apply conf_inv_tree with (m := m) (v := v) (s := run w ca_init h).
    + apply in_or_app. right. now left.
    + eapply conf_inv_mono; [| exact IH]. apply incl_appl, incl_refl.
    + apply step_tree.
Qed.

(** *** Accepted certConf messages *)
(** [verify_protection] touches only the stateful-signature indices *)
Definition only_stfl (s s' : ca) : Prop := exists t, s' = set_stfl s t.
Lemma only_stfl_refl s : only_stfl s s.
Proof. exists (s_stfl s). destruct s; reflexivity. Qed.
Lemma only_stfl_trans a b c : only_stfl a b -> only_stfl b c -> only_stfl a c.
Proof. intros (t & ->) (u & ->). exists u. reflexivity. Qed.

Ltac osr := apply only_stfl_refl.
Ltac os_step :=
  match goal with
  | |- only_stfl ?s (fst (ret _ ?s)) => osr
  | |- only_stfl ?s (fst (raise _ _ ?s)) => osr
  | |- only_stfl ?s (fst (lift _ ?r ?s)) => destruct r; cbn; osr
  | |- only_stfl ?s (fst (bindM (raise _ _) _ ?s)) => osr
  | |- only_stfl ?s (fst (bindM get _ ?s)) => apply (pr_bind_get (R := only_stfl)); cbv beta
  | |- only_stfl ?s (fst (bindM (ret _) _ ?s)) => apply (pr_bind_ret (R := only_stfl))
  | |- only_stfl ?s (fst (bindM (lift _ _) _ ?s)) => apply pr_bind_lift; [apply only_stfl_refl | intros ? ?]
  | |- only_stfl ?s (fst (bindM (octets _ _) _ ?s)) => apply pr_bind_octets; [apply only_stfl_refl | intros ? ?]
  | |- only_stfl ?s (fst (bindM (if ?x then _ else _) _ ?s)) => destruct x eqn:?
  | |- only_stfl ?s (fst (bindM (match ?x with _ => _ end) _ ?s)) => destruct x eqn:?
  | |- only_stfl ?s (fst ((if ?x then _ else _) ?s)) => destruct x eqn:?
  | |- only_stfl ?s (fst ((match ?x with _ => _ end) ?s)) => destruct x eqn:?
  end.
Ltac os := repeat os_step.

Lemma os_stfl_use c i s : only_stfl s (fst (stfl_use w c i s)).
Proof. unfold stfl_use, modify, fst. destruct (stfl_state w s c); [eexists; reflexivity | osr]. Qed.
Lemma os_stfl_check m a b x s : only_stfl s (fst (stfl_check w m a b x s)).
Proof. unfold stfl_check. os. apply os_stfl_use. Qed.
Lemma os_stfl_validate m s : only_stfl s (fst (stfl_validate w m s)).
Proof. unfold stfl_validate. os. apply os_stfl_check. Qed.
Lemma os_stfl_add_msg m s : only_stfl s (fst (stfl_add_msg w m s)).
Proof. unfold stfl_add_msg. os. apply os_stfl_use. Qed.
Lemma os_kem_verify v m s : only_stfl s (fst (kem_verify v m s)).
Proof. rewrite pure_kem_verify. osr. Qed.
Lemma os_validate_signature v m x s : only_stfl s (fst (validate_signature w v m x s)).
Proof.
  unfold validate_signature. destruct (m_extra m) as [| c l]; [osr |].
  apply pr_bind; [apply only_stfl_trans | os | intros s1 _ _].
  apply pr_bind; [apply only_stfl_trans | | intros s2 _ _; os].
  unfold sig_errors. apply pr_catch; [apply only_stfl_trans | |].
  - apply pr_bind_lift; [apply only_stfl_refl | intros t Ht].
    apply pr_bind; [apply only_stfl_trans | os; apply os_stfl_check | intros s2 _ _]. os. apply os_stfl_use.
  - intros s2 e x0 q _ Eq. destruct e; inversion Eq; osr.
Qed.
Lemma os_validate_protection v m x s : only_stfl s (fst (validate_protection w v m x s)).
Proof. unfold validate_protection. os; try apply os_validate_signature. apply os_kem_verify. Qed.
Lemma os_verify_protection v m s : only_stfl s (fst (verify_protection w v m s)).
Proof.
  unfold verify_protection. os.
  all: apply pr_bind; [apply only_stfl_trans | apply os_stfl_validate | intros s1 _ _]; os;
    try apply os_validate_protection; apply os_kem_verify.
Qed.
Lemma os_verify_added v q b s : only_stfl s (fst (verify_added_protection w v q b s)).
Proof.
  unfold verify_added_protection. os.
  all: apply pr_bind; [apply only_stfl_trans | apply os_validate_protection | intros ? _ _; os].
Qed.
Lemma os_verify_inner v q b s : only_stfl s (fst (verify_inner_batch w v q b s)).
Proof.
  unfold verify_inner_batch. os. apply pr_catch; [apply only_stfl_trans | apply os_validate_protection |].
  intros s1 e m q' _ Eq. destruct e; cbn in Eq; inversion Eq; osr.
Qed.
Lemma os_verify_nested v q s : only_stfl s (fst (verify_nested w v q s)).
Proof.
  unfold verify_nested. os. apply pr_bind; [apply only_stfl_trans | apply os_validate_signature | intros ? _ _; os].
Qed.
Lemma pre_only v m s s1 : pre_ok w v m s s1 -> only_stfl s s1.
Proof.
  intros (_ & Hv & _). destruct (body_in (m_body m) [B_rr; B_genm]); [subst; osr |].
  pose proof (os_verify_protection v m s) as P. rewrite Hv in P. exact P.
Qed.
End Hist.
