(** The handlers only perform primitive updates ([CAUpdates]). *)
From Verif Require Export CAUpdates.
Local Open Scope Z_scope.

Definition pure {A} (p : M A) : Prop := forall s, fst (p s) = s.

Section PureFacts.
Lemma pure_ret {A} (a : A) : pure (ret a). Proof. intros s; reflexivity. Qed.
Lemma pure_raise {A} m e : pure (@raise A m e). Proof. intros s; reflexivity. Qed.
Lemma pure_get : pure get. Proof. intros s; reflexivity. Qed.
Lemma pure_lift {A} m (r : result A) : pure (lift m r). Proof. destruct r; intros s; reflexivity. Qed.
Lemma pure_octets m o : pure (octets m o). Proof. destruct o; intros s; reflexivity. Qed.
Lemma pure_bind {A B} (p : M A) (k : A -> M B) : pure p -> (forall a, pure (k a)) -> pure (bindM p k).
Proof.
  intros Hp Hk s. unfold bindM. specialize (Hp s). destruct (p s) as [s1 [a | e m]]; cbn in *; subst; [apply Hk | reflexivity].
Qed.
Lemma pure_catch {A} (p : M A) h : pure p -> (forall e m q, h e m = Some q -> pure q) -> pure (catch p h).
Proof.
  intros Hp Hh s. unfold catch. specialize (Hp s). destruct (p s) as [s1 [a | e m]]; cbn in *; subst; [reflexivity |].
  destruct (h e m) eqn:E; [apply (Hh e m _ E) | reflexivity].
Qed.
Lemma pure_state {A} (p : M A) s s' x : pure p -> p s = (s', x) -> s' = s.
Proof. intros Hp E. rewrite <- (Hp s), E. reflexivity. Qed.
End PureFacts.

Ltac pure_step :=
  match goal with
  | |- pure (ret _) => apply pure_ret
  | |- pure (raise _ _) => apply pure_raise
  | |- pure get => apply pure_get
  | |- pure (lift _ _) => apply pure_lift
  | |- pure (octets _ _) => apply pure_octets
  | |- pure (bindM _ _) => apply pure_bind; [| intros ?]
  | |- pure (if ?x then _ else _) => destruct x eqn:?
  | |- pure (match ?x with _ => _ end) => destruct x eqn:?
  end.
Ltac purify := repeat pure_step.

Lemma pure_kem_verify v m : pure (kem_verify v m). Proof. unfold kem_verify. purify. Qed.
Lemma pure_reply_to v m b ok f c : pure (reply_to v m b ok f c).
Proof. unfold reply_to, ca_header. purify. Qed.
Lemma pure_protect v m r : pure (protect v m r). Proof. unfold protect. purify. Qed.
Lemma pure_rp_error v m e : pure (rp_error v m e). Proof. apply pure_reply_to. Qed.
Lemma pure_kur_checks w v m : pure (kur_checks w v m). Proof. unfold kur_checks. purify. Qed.
Lemma pure_issue v m : pure (issue v m).
Proof. unfold issue. purify. apply pure_reply_to. Qed.
Lemma pure_compromised w v m : pure (compromised_check w v m). Proof. unfold compromised_check. purify. Qed.
Lemma pure_not_confirmed w m : pure (not_confirmed_check w m). Proof. unfold not_confirmed_check. purify. Qed.
Lemma pure_body_relevant v x : pure (body_relevant_error v x).
Proof. unfold body_relevant_error. purify; try apply pure_rp_error; try apply pure_reply_to; apply pure_protect. Qed.

Lemma pr_pure {A} (R : ca -> ca -> Prop) (p : M A) s : (forall s, R s s) -> pure p -> R s (fst (p s)).
Proof. intros Rr Hp. rewrite Hp. apply Rr. Qed.
Lemma pr_bind_pure {A B} {R : ca -> ca -> Prop} (p : M A) (k : A -> M B) s :
  (forall s, R s s) -> pure p -> (forall a, p s = (s, ROk a) -> R s (fst (k a s))) -> R s (fst (bindM p k s)).
Proof.
  intros Rr Hp Hk. unfold bindM. pose proof (Hp s) as E. destruct (p s) as [s1 [a | e m]]; cbn in *; subst; [| apply Rr].
  apply Hk. reflexivity.
Qed.

Lemma reply_to_ok v m b ok f certs s s' r :
  reply_to v m b ok f certs s = (s', ROk r) ->
  s' = s /\ exists t n, m_tx m = Some t /\ m_snonce m = Some n /\
  r = {| r_body := b; r_ok := ok; r_fail := f; r_tx := Some t; r_rnonce := Some n;
         r_snonce := resp_snonce v m; r_certs := certs; r_implicit := false; r_inner := [] |}.
Proof.
  unfold reply_to, ca_header. intros E. minv. split; [reflexivity |]. eauto 6.
Qed.
Lemma reply_to_err v m b ok f certs s s' e x :
  reply_to v m b ok f certs s = (s', RErr e x) ->
  s' = s /\ e = EPyAsn1 /\ x = m /\ (m_tx m = None \/ m_snonce m = None).
Proof.
  unfold reply_to, ca_header. intros E.
  apply bindM_err in E. destruct E as [E | (h & s1 & _ & E)]; [| apply ret_err in E; destruct E].
  apply bindM_err in E. destruct E as [E | (n & s1 & E1 & E)].
  - apply octets_err in E. destruct E as (-> & -> & ? & ->). auto.
  - apply octets_ok in E1. destruct E1 as [-> En].
    apply bindM_err in E. destruct E as [E | (t & s2 & _ & E)]; [| apply ret_err in E; destruct E].
    apply octets_err in E. destruct E as (-> & -> & ? & ->). auto.
Qed.
Lemma protect_ok v m r s s' r' : protect v m r s = (s', ROk r') -> s' = s /\ r' = r /\ v_protect v m r = Ok tt.
Proof. unfold protect. intros E. minv. auto. Qed.

Section Pres.
Variable w : world.
Local Notation steps := (steps w).
Local Notation tree := (tree w).

Ltac one c := apply rt_step; eapply c; eauto.

Lemma has_prot_type_ok q t : prot_type w q = Ok t -> has_prot_type w q t = true.
Proof. unfold has_prot_type. intros ->. apply ptype_eqb_eq. reflexivity. Qed.

Lemma pr_stfl_use v q c i sig s :
  has_prot_type w q PT_STFL = true -> hd_error (m_extra q) = Some c -> m_prot q = Some sig ->
  w_sig_index w c sig = Ok i -> steps v q s (fst (stfl_use w c i s)).
Proof.
  intros. unfold stfl_use, modify, fst. destruct (stfl_state w s c) eqn:E; [one P_stfl_use | rfl].
Qed.

Lemma pr_stfl_check v q a b x s :
  prot_type w q = Ok PT_STFL -> steps v q s (fst (stfl_check w q a b x s)).
Proof.
  intros Ht. unfold stfl_check. pr.
  eapply pr_stfl_use; eauto.
  - now apply has_prot_type_ok.
  - match goal with E : m_extra q = _ |- _ => now rewrite E end.
Qed.

Lemma pr_stfl_validate v q s : steps v q s (fst (stfl_validate w q s)).
Proof.
  unfold stfl_validate. pr. apply pr_stfl_check.
  match goal with E : ptype_eqb ?a _ = true |- _ => apply ptype_eqb_eq in E; subst end. assumption.
Qed.

Lemma pr_stfl_add_msg v q s : steps v q s (fst (stfl_add_msg w q s)).
Proof.
  unfold stfl_add_msg. pr.
  match goal with E : ptype_eqb ?a _ = true |- _ => apply ptype_eqb_eq in E; subst end.
  eapply pr_stfl_use; eauto.
  - now apply has_prot_type_ok.
  - match goal with E : m_extra q = _ |- _ => now rewrite E end.
Qed.

Lemma pr_stfl_add v q m c i s : w_is_stfl w c = true -> steps v q s (fst (stfl_add w m c i s)).
Proof.
  intros Hc. unfold stfl_add. pr. unfold modify, fst. one P_stfl_new.
Qed.

Lemma pr_stfl_after v q m certs : forall i s, steps v q s (fst (stfl_after w m certs i s)).
Proof.
  induction certs as [| c certs IH]; intros i s; cbn [stfl_after]; [rfl |].
  prbind; [| apply IH]. pr. apply pr_stfl_add. assumption.
Qed.

Lemma pr_validate_signature v q x s : steps v q s (fst (validate_signature w v q x s)).
Proof.
  unfold validate_signature. destruct (m_extra q) as [| c l] eqn:Ex; [rfl |].
  prbind; [pr |]. prbind; [| pr]. unfold sig_errors.
  apply pr_catch; [intros; eapply rt_trans; eauto | | intros ? e ? ? _ Eq].
  - apply pr_bind_lift; [intros; rfl | intros t Ht]. prbind.
    + pr. match goal with E : ptype_eqb t _ = true |- _ => apply ptype_eqb_eq in E; subst end.
      apply pr_stfl_check. assumption.
    + prbind; [pr | pr].
      match goal with E : _ && _ = true |- _ => apply Bool.andb_true_iff in E; destruct E as [_ E]; apply ptype_eqb_eq in E; subst end.
      eapply pr_stfl_use; eauto; [now apply has_prot_type_ok | now rewrite Ex].
  - destruct e; inversion Eq; subst; rfl.
Qed.

Lemma pr_validate_protection v q x s : steps v q s (fst (validate_protection w v q x s)).
Proof.
  unfold validate_protection. pr; try apply pr_validate_signature.
  apply pr_pure; [intros; rfl | apply pure_kem_verify].
Qed.

Lemma pr_verify_protection v q s : steps v q s (fst (verify_protection w v q s)).
Proof.
  unfold verify_protection. pr.
  all: prbind; [apply pr_stfl_validate |].
  all: pr; try apply pr_validate_protection; apply pr_pure; [intros; rfl | apply pure_kem_verify].
Qed.

Lemma pr_verify_added v q b s : steps v q s (fst (verify_added_protection w v q b s)).
Proof.
  unfold verify_added_protection. pr. all: prbind; [apply pr_validate_protection | pr].
Qed.

Lemma pr_verify_inner v q b s : steps v q s (fst (verify_inner_batch w v q b s)).
Proof.
  unfold verify_inner_batch. pr.
  apply pr_catch; [intros; eapply rt_trans; eauto | apply pr_validate_protection |].
  intros s1 e m q' _ Eq. destruct e; cbn in Eq; inversion Eq; rfl.
Qed.

Lemma pr_verify_nested v q s : steps v q s (fst (verify_nested w v q s)).
Proof.
  unfold verify_nested. pr. prbind; [apply pr_validate_signature | pr].
Qed.

Lemma pr_add_certs v q m certs0 enc certs confirmed :
  is_cert_req (m_body q) = true -> v_issue v q = Ok (true, certs0, enc) -> confirmed = check_if_used q enc ->
  (forall c, In c certs -> In c certs0) ->
  forall s, steps v q s (fst (add_certs w v m certs confirmed s)).
Proof.
  intros Hb Hi -> Hin. induction certs as [| c certs IH]; intros s; cbn [add_certs]; [rfl |].
  prbind; [| apply IH; intros; apply Hin; now right].
  unfold lift_db, fst.
  match goal with |- context [add_cert ?a ?b ?c ?d ?e] => destruct (add_cert a b c d e) eqn:Ea end; [| rfl].
  apply rt_step. eapply P_db with (o := Add c (if check_if_used q enc then CONFIRMED else NOT_CONFIRMED) (v_now v)).
  - eapply D_add; eauto. apply Hin; now left.
  - exact Ea.
Qed.

Lemma pr_process_after v q r enc s :
  is_cert_req (m_body q) = true ->
  r_body r = resp_body (m_body q) -> r_tx r = m_tx q -> r_snonce r = v_nonce v q -> r_rnonce r = m_snonce q ->
  (r_ok r = true -> v_issue v q = Ok (true, r_certs r, enc)) ->
  steps v q s (fst (process_after w v q r enc s)).
Proof.
  intros Hb Hrb Htx Hsn Hrn Hi. unfold process_after. cbv zeta.
  destruct (negb (body_in (r_body r) _)) eqn:E1; [rfl |].
  destruct (negb (r_ok r)) eqn:E2; [rfl |].
  apply Bool.negb_false_iff in E2. specialize (Hi E2).
  prbind.
  { unfold store_tx. pr. unfold modify, fst. one P_tx. }
  prbind.
  { pr. unfold modify, fst. apply rt_step, P_cross. now left. }
  prbind.
  { pr. unfold add_may_update, lift_db, fst.
    match goal with |- context [change_cert_state ?a ?b ?c ?d ?e ?f ?g] => destruct (change_cert_state a b c d e f g) eqn:Ea end; [| rfl].
    apply rt_step. eapply P_db.
    - eapply D_update with (old := c) (new := c0).
      + match goal with E : body_eqb (r_body r) B_kup = true |- _ => apply body_eqb_eq in E; rewrite Hrb in E end.
        destruct (m_body q); try discriminate; reflexivity.
      + exact Hi.
      + match goal with E : m_extra q = _ |- _ => now rewrite E end.
      + reflexivity.
    - exact Ea. }
  prbind; [| rfl].
  destruct (check_if_used q enc) eqn:Ec.
  - prbind; [eapply pr_add_certs; eauto |].
    prbind; [| apply pr_stfl_after].
    unfold conf_add_confirmed. pr. unfold modify, fst. one P_confirmed.
  - prbind; [eapply pr_add_certs; eauto |].
    unfold conf_add. pr.
    apply pr_bind_modify; [intros; eapply rt_trans; eauto | one P_conf_req |].
    pr. unfold modify, fst. apply rt_step. 
    replace b0 with b by congruence.
    eapply P_conf_resp; eauto; congruence.
Qed.

Lemma issue_ok v m s s' r enc :
  issue v m s = (s', ROk (r, enc)) ->
  s' = s /\ exists ok certs, v_issue v m = Ok (ok, certs, enc) /\
    reply_to v m (resp_body (m_body m)) ok (if ok then None else Some ECMPTestSuite) certs s = (s, ROk r).
Proof.
  unfold issue. intros E. minv.
  destruct x as [[ok certs] enc']. minv.
  match goal with E : (r, enc) = _ |- _ => inversion E; subst end.
  pose proof (pure_state _ _ _ _ (pure_reply_to _ _ _ _ _ _) H0). subst.
  split; [reflexivity |]. exists ok, certs. auto.
Qed.

Lemma pr_process_by_body v q s :
  is_cert_req (m_body q) = true -> m_rnonce q = None -> steps v q s (fst (process_by_body w v q s)).
Proof.
  intros Hb Hr. unfold process_by_body.
  apply pr_bind_pure; [intros; rfl | purify; apply pure_kur_checks | intros _ _].
  apply pr_bind_pure; [intros; rfl | apply pure_issue | intros [r enc] Hi].
  apply issue_ok in Hi. destruct Hi as (_ & ok & certs & Hi & Hrep).
  apply reply_to_ok in Hrep. destruct Hrep as (_ & t & n & Ht & Hn & ->).
  cbn [fst snd]. apply pr_process_after; cbn; auto.
  - unfold resp_snonce. now rewrite Hr.
  - intros ->. exact Hi.
Qed.

Lemma validate_header_rnonce v q must : validate_header w v q must false = Ok tt -> m_rnonce q = None.
Proof.
  unfold validate_header. intros E.
  apply bind_ok in E. destruct E as (? & _ & E). apply bind_ok in E. destruct E as (? & E & _).
  unfold request_nonces in E.
  destruct (body_eqb _ B_nested); [discriminate |]. destruct (body_eqb _ B_certConf); [discriminate |].
  destruct (m_snonce q); [| discriminate]. destruct (m_tx q); [| discriminate].
  destruct (m_rnonce q); [discriminate | reflexivity].
Qed.

Lemma pr_process_cert_request v q must s : steps v q s (fst (process_cert_request w v q must s)).
Proof.
  unfold process_cert_request. apply pr_bind_lift; [intros; rfl | intros [] Hh].
  apply validate_header_rnonce in Hh. destruct (negb _) eqn:Hb; [rfl |]. apply Bool.negb_false_iff in Hb.
  apply pr_catch; [intros; eapply rt_trans; eauto | |].
  - pr. now apply pr_process_by_body.
  - intros s1 e m p _ Ep. apply pr_pure; [intros; rfl |].
    destruct e; cbn in Ep; inversion Ep; apply pure_reply_to.
Qed.

(** [confirm_certs] does not touch the confirmation state. *)
Definition keeps_conf (s s' : ca) : Prop :=
  s_ccerts s' = s_ccerts s /\ s_creq s' = s_creq s /\ s_cresp s' = s_cresp s /\ s_confirmed s' = s_confirmed s
  /\ s_kem s' = s_kem s /\ s_ids s' = s_ids s /\ s_chal s' = s_chal s.
Lemma keeps_conf_refl s : keeps_conf s s.
Proof. repeat split. Qed.
Lemma keeps_conf_trans a b c : keeps_conf a b -> keeps_conf b c -> keeps_conf a c.
Proof.
  intros (A1 & A2 & A3 & A4 & A5 & A6 & A7) (B1 & B2 & B3 & B4 & B5 & B6 & B7).
  repeat split; etransitivity; eassumption.
Qed.

Lemma stfl_after_conf m certs : forall i s,
  keeps_conf s (fst (stfl_after w m certs i s)) /\ s_db (fst (stfl_after w m certs i s)) = s_db s.
Proof.
  intros i s.
  enough (X : (fun s s' => keeps_conf s s' /\ s_db s' = s_db s) s (fst (stfl_after w m certs i s))) by exact X.
  revert i s. induction certs as [| c certs IH]; intros i s; cbn [stfl_after].
  - split; [apply keeps_conf_refl | reflexivity].
  - apply (pr_bind (R := fun s s' => keeps_conf s s' /\ s_db s' = s_db s)); [| | intros; apply IH].
    + intros a b c0 [A A'] [B B']. split; [eapply keeps_conf_trans; eauto | congruence].
    + destruct (w_is_stfl w c); [| split; [apply keeps_conf_refl | reflexivity]].
      destruct (nth_error _ _) as [q |]; [| split; [apply keeps_conf_refl | reflexivity]].
      destruct (popo_index (q_popo q)) as [[|] |]; cbn; try (split; [apply keeps_conf_refl | reflexivity]).
      unfold stfl_add, bindM, get. destruct (stfl_state _ _ _); split; try apply keeps_conf_refl; try reflexivity.
      repeat split.
Qed.

Lemma confirm_certs_conf v m req certs : forall s, keeps_conf s (fst (confirm_certs w v m req certs s)).
Proof.
  induction certs as [| c certs IH]; intros s; cbn [confirm_certs]; [apply keeps_conf_refl |].
  apply pr_bind; [apply keeps_conf_trans | |].
  { unfold lift_db. destruct (change_cert_state _ _ _ _ _ _ _); [repeat split | apply keeps_conf_refl]. }
  intros s1 _ _. apply pr_bind; [apply keeps_conf_trans | | intros; apply IH].
  destruct (w_is_stfl w c); [| apply keeps_conf_refl]. destruct (body_in _ _); [| apply keeps_conf_refl].
  apply stfl_after_conf.
Qed.

Lemma pr_confirm_certs v q req tx certs0 :
  m_body q = B_certConf -> m_tx q = Some tx ->
  forall certs s, (forall c, In c certs -> In c certs0) -> dget bytes_eqb tx (s_ccerts s) = Some certs0 ->
  steps v q s (fst (confirm_certs w v q req certs s)).
Proof.
  intros Hb Htx certs. induction certs as [| c certs IH]; intros s Hin Hd; cbn [confirm_certs]; [rfl |].
  assert (Hst : forall c i s2, s_ccerts (fst (stfl_after w req [c] i s2)) = s_ccerts s2).
  { intros c0 i s2. apply (stfl_after_conf req [c0] i s2). }
  prbind.
  { unfold lift_db, fst.
    match goal with |- context [change_cert_state ?a ?b ?c ?d ?e ?f ?g] => destruct (change_cert_state a b c d e f g) eqn:Ea end; [| rfl].
    apply rt_step. eapply P_db with (o := Change c CONFIRMED None None (v_now v)).
    - eapply D_confirm; eauto. apply Hin; now left.
    - exact Ea. }
  minv. prbind.
  { pr. apply pr_stfl_after. }
  match goal with E : _ = (?s1, ROk _) |- steps _ _ ?s1 _ => rename E into E1 end.
  apply IH; [intros; apply Hin; now right |].
  assert (Hcc : s_ccerts s1 = s_ccerts (set_db s x)).
  { revert E1. destruct (w_is_stfl w c); [| intros E1; minv; reflexivity].
    destruct (body_in _ _); [| intros E1; minv; reflexivity].
    intros E1. rewrite <- (Hst c 0%nat (set_db s x)). now rewrite E1. }
  rewrite Hcc. exact Hd.
Qed.

Lemma pr_process_cert_conf v q s :
  m_body q = B_certConf -> steps v q s (fst (process_cert_conf w v q s)).
Proof.
  intros Hb. unfold process_cert_conf. destruct (m_tx q) as [tx |] eqn:Htx; [| rfl].
  pr. 
  apply pr_bind_pure; [intros; rfl | apply pure_reply_to | intros rep _].
  prbind.
  { pr. unfold lift_db, fst.
    match goal with |- context [change_cert_state ?a ?b ?c ?d ?e ?f ?g] => destruct (change_cert_state a b c d e f g) eqn:Ea end; [| rfl].
    apply rt_step. eapply P_db.
    - eapply D_updated; eauto.
      + match goal with E : body_eqb _ B_kup = true |- _ => now apply body_eqb_eq in E end.
      + match goal with E : m_extra _ = _ |- _ => now rewrite E end.
    - exact Ea. }
  match goal with E : _ = (?s1, ROk _) |- _ => rename E into E1 end.
  assert (Hs1 : s_ccerts s1 = s_ccerts s).
  { revert E1. destruct (body_eqb _ B_kup); [| intros E1; minv; reflexivity].
    destruct (m_extra m); intros E1; minv. reflexivity. }
  prbind.
  { eapply pr_confirm_certs with (tx := tx) (certs0 := c :: l0); eauto. now rewrite Hs1. }
  prbind.
  { unfold remove_request. rewrite Htx.
    apply pr_bind_modify; [intros; eapply rt_trans; eauto | one P_close |].
    pr. unfold modify, fst. apply rt_step. eapply P_close_certs; eauto.
    cbn. apply in_or_app. right. now left. }
  prbind; [| rfl]. pr. unfold modify, fst. apply rt_step, P_cross. now right.
Qed.

Lemma pr_lift_rev v q m c r s : m_body q = B_rr -> steps v q s (fst (mark_revoked w v m c r s)).
Proof.
  intros Hb. unfold mark_revoked, lift_db, fst.
  match goal with |- context [change_cert_state ?a ?b ?c ?d ?e ?f ?g] => destruct (change_cert_state a b c d e f g) eqn:Ea end; [| rfl].
  apply rt_step. eapply P_db; [eapply D_revoke; auto | exact Ea].
Qed.
Lemma pr_revive v q m c s : m_body q = B_rr -> steps v q s (fst (revive w v m c s)).
Proof.
  intros Hb. unfold revive, lift_db, fst.
  match goal with |- context [change_cert_state ?a ?b ?c ?d ?e ?f ?g] => destruct (change_cert_state a b c d e f g) eqn:Ea end; [| rfl].
  apply rt_step. eapply P_db; [eapply D_revive; auto | exact Ea].
Qed.

Lemma pr_rp_catch v q m p s : steps v q s (fst (p s)) -> steps v q s (fst (rp_catch v m p s)).
Proof.
  intros Hp. unfold rp_catch. apply pr_catch; [intros; eapply rt_trans; eauto | exact Hp |].
  intros s1 e x p' _ Ep. apply pr_pure; [intros; rfl |].
  destruct e; cbn in Ep; inversion Ep; apply pure_rp_error.
Qed.

Lemma pr_self_revive v q c s : m_body q = B_rr -> steps v q s (fst (self_revive w v q c s)).
Proof.
  intros Hb. unfold self_revive. apply pr_rp_catch. pr.
  - prbind; [now apply pr_revive | apply pr_pure; [intros; rfl | apply pure_reply_to]].
  - apply pr_pure; [intros; rfl | apply pure_reply_to].
Qed.

Lemma pr_process_rr v q s : m_body q = B_rr -> steps v q s (fst (process_rr w v q s)).
Proof.
  intros Hb. unfold process_rr. apply pr_bind_get.
  apply pr_bind_pure; [intros; rfl | purify | intros tx _].
  cbv zeta. apply pr_rp_catch. pr.
  - now apply pr_self_revive.
  - prbind; [now apply pr_revive | apply pr_pure; [intros; rfl | apply pure_reply_to]].
  - prbind; [now apply pr_lift_rev | apply pr_pure; [intros; rfl | apply pure_reply_to]].
  - apply pr_pure; [intros; rfl | apply pure_reply_to].
Qed.

Lemma pr_process_challenge v q s :
  m_challenge q = true -> (m_body q = B_ir \/ m_body q = B_cr) -> steps v q s (fst (process_challenge v q s)).
Proof.
  intros Hc Hb. unfold process_challenge. pr.
  apply pr_bind_pure; [intros; rfl | apply pure_reply_to | intros rep _].
  apply pr_bind_modify; [intros; eapply rt_trans; eauto | | rfl]. one P_chal_new.
Qed.

Lemma pr_popdecr_loop v q tx ns : m_tx q = Some tx -> m_body q = B_popdecr ->
  forall b acc s, steps v q s (fst (popdecr_loop v q tx ns b acc s)).
Proof.
  intros Htx Hb. induction ns as [| n ns IH]; intros b acc s; cbn [popdecr_loop]; [rfl |].
  pr. apply pr_bind_modify; [intros; eapply rt_trans; eauto | one P_chal_del | apply IH].
Qed.

Lemma pr_process_popdecr v q s : m_body q = B_popdecr -> steps v q s (fst (process_popdecr w v q s)).
Proof.
  intros Hb. unfold process_popdecr. pr. prbind; [now apply pr_popdecr_loop |]. pr.
  apply pr_bind_pure; [intros; rfl | apply pure_reply_to | intros rep _]. cbn [add_certs]. pr.
Qed.

Lemma pr_process_genm v q s : m_body q = B_genm -> steps v q s (fst (process_genm w v q s)).
Proof.
  intros Hb. unfold process_genm. destruct (m_genm q); [rfl | |].
  - prbind; [pr; apply pr_validate_protection |]. pr.
    apply pr_bind_pure; [intros; rfl | apply pure_reply_to | intros rep _].
    apply pr_bind_pure; [intros; rfl | apply pure_not_confirmed | intros _ _].
    pr. apply pr_bind_modify; [intros; eapply rt_trans; eauto | one P_kem_add | rfl].
  - prbind; [pr; apply pr_validate_protection |]. pr.
    apply pr_pure; [intros; rfl | apply pure_reply_to].
Qed.

Lemma added_ids_inner m i : added_ids m = Ok i -> m_inner m = [i].
Proof.
  unfold added_ids. destruct (m_inner m) as [| i' [| j l]]; try discriminate.
  destruct (m_snonce m); [| discriminate]. destruct (m_tx m); [| discriminate].
  destruct (m_tx i'); [| discriminate]. destruct (negb _); [discriminate |].
  destruct (m_snonce i'); [| discriminate]. destruct (negb (bytes_eqb b2 b)); [discriminate |].
  intros E. apply bind_ok in E. destruct E as (rn & _ & E).
  destruct (negb (len16 b1)); [discriminate |]. destruct (negb (len16 b)); [discriminate |].
  destruct rn as [rn |]; [destruct (len16 rn); [| discriminate] |]; inversion E; reflexivity.
Qed.

Lemma pr_process_added v m s : tree v m s (fst (process_added w v m s)).
Proof.
  unfold process_added. apply pr_bind_lift; [intros; rfl | intros i Hi].
  apply added_ids_inner in Hi.
  assert (P : part m i). { eapply part_in; [| apply part_self]. rewrite Hi. now left. }
  pr. prbind; [eapply steps_tree; [exact P | apply pr_verify_added] |].
  prbind; [| apply pr_pure; [intros; rfl | apply pure_protect]].
  pr.
  - eapply steps_tree; [exact P | apply pr_process_cert_request].
  - eapply steps_tree; [exact P | apply pr_process_cert_conf].
    match goal with E : body_eqb _ B_certConf = true |- _ => now apply body_eqb_eq in E end.
Qed.

Lemma pr_batch_entry v e s : tree v e s (fst (batch_entry w v e s)).
Proof.
  unfold batch_entry. pr.
  - apply pr_process_added.
  - prbind; [eapply steps_tree; [apply part_self | apply pr_process_cert_conf] | apply pr_pure; [intros; rfl | apply pure_protect]].
    match goal with E : body_eqb _ B_certConf = true |- _ => now apply body_eqb_eq in E end.
  - prbind; [eapply steps_tree; [apply part_self | apply pr_verify_inner] |].
    pr. prbind; [eapply steps_tree; [apply part_self | apply pr_process_cert_request] |
                 apply pr_pure; [intros; rfl | apply pure_protect]].
Qed.

Lemma pr_batch_loop v m es : (forall e, In e es -> In e (m_inner m)) ->
  forall s, tree v m s (fst (batch_loop w v es s)).
Proof.
  induction es as [| e es IH]; intros Hin s; cbn [batch_loop]; [rfl |].
  prbind.
  - eapply tree_part; [| apply pr_batch_entry]. eapply part_in; [| apply part_self]. apply Hin; now left.
  - prbind; [apply IH; intros; apply Hin; now right | rfl].
Qed.

Lemma pr_process_nested v m s : tree v m s (fst (process_nested w v m s)).
Proof.
  unfold process_nested. prbind; [eapply steps_tree; [apply part_self | apply pr_verify_nested] |].
  pr; try apply pr_process_added.
  unfold process_batched. pr. prbind; [apply pr_batch_loop; auto |]. pr.
  apply pr_pure; [intros; rfl | apply pure_protect].
Qed.

Ltac self := eapply steps_tree; [apply part_self |].

Lemma pr_dispatch v m s : tree v m s (fst (dispatch w v m s)).
Proof.
  unfold dispatch. destruct (body_in (m_body m) [B_ir; B_cr] && m_challenge m) eqn:E.
  - apply Bool.andb_true_iff in E. destruct E as [Eb Ec]. apply body_in_In in Eb.
    prbind; [self; apply pr_process_challenge; [exact Ec | cbn in Eb; intuition auto] |].
    apply pr_bind_pure; [intros; rfl | apply pure_protect | intros; rfl].
  - clear E. destruct (m_body m) eqn:Hb; try rfl.
    all: try (prbind; [self; apply pr_validate_protection |];
              prbind; [self; apply pr_stfl_add_msg |];
              prbind; [self; apply pr_process_cert_request | rfl]).
    all: try (prbind; [self; now apply pr_process_cert_conf | rfl]).
    all: try (prbind; [self; now apply pr_process_popdecr | rfl]).
    all: try (prbind; [apply pr_process_nested | rfl]).
    all: try (pr; prbind; [self; now apply pr_process_genm | pr]; fail).
    prbind; [| rfl]. self. apply pr_catch; [intros; eapply rt_trans; eauto | |].
    + pr. now apply pr_process_rr.
    + intros s1 e x p _ Ep. apply pr_pure; [intros; rfl |]. destruct e; inversion Ep; apply pure_rp_error.
Qed.

Lemma pr_handle v m s : tree v m s (fst (handle w v m s)).
Proof.
  unfold handle. apply pr_bind_get.
  apply pr_bind_pure; [intros; rfl | purify | intros _ _].
  prbind; [pr; self; apply pr_verify_protection |].
  apply pr_bind_pure; [intros; rfl | purify; apply pure_compromised | intros _ _].
  apply pr_bind_pure; [intros; rfl | purify; apply pure_not_confirmed | intros _ _].
  apply pr_dispatch.
Qed.

Lemma pr_kem_update v m s : steps v m s (fst (kem_update w m s)).
Proof.
  unfold kem_update. pr. unfold modify, fst. one P_kem_mark.
Qed.

Lemma pr_process_request v m s : tree v m s (fst (process_request w v m s)).
Proof.
  unfold process_request. pose proof (pr_handle v m s) as Hh.
  destruct (handle w v m s) as [s1 [[r | r] | e x]]; cbn [fst] in Hh.
  - exact Hh.
  - eapply rt_trans; [exact Hh |]. prbind; [self; apply pr_kem_update | apply pr_pure; [intros; rfl | apply pure_protect]].
  - eapply rt_trans; [exact Hh |]. apply pr_pure; [intros; rfl |].
    destruct e; cbn [is_cmp]; try apply pure_protect. apply pure_body_relevant.
Qed.

Lemma step_tree s m v : tree v m s (fst (step w s (m, v))).
Proof.
  unfold step. cbn [fst snd]. pose proof (pr_process_request v m s).
  destruct (process_request w v m s) as [s' [r | e x]]; exact H.
Qed.

End Pres.
