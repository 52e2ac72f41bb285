(** Message authentication: KEM secrets, challenges and one-time signatures
    (C12, C13, C14). *)
From Verif Require Export CAReqProofs.
From Verif Require Import CADbProofs.
Local Open Scope Z_scope.

Section Auth.
Variable w : world.
Local Notation H := (w_H w).

(** *** C12: shared secrets *)
Lemma kem_prot m : has_prot_type w m PT_KEM = true -> prot_type w m = Ok PT_KEM /\ exists oid, m_alg m = Some oid.
Proof.
  unfold has_prot_type, prot_type. destruct (m_alg m) as [oid |]; [| discriminate].
  destruct (w_ptype w oid) as [t |]; [| discriminate]. intros E. apply ptype_eqb_eq in E. subst t. eauto.
Qed.

(** [denied s m]: the secret shared in this transaction does not authenticate [m] *)
Definition kem_denied (s : ca) (m : msg) : Prop :=
  exists tx, m_tx m = Some tx /\
  (kem_find (s_kem s) tx = None \/
   (m_body m <> B_certConf /\ exists k, kem_find (s_kem s) tx = Some k /\ ke_used k = true)).

Lemma kem_verify_denied v m s : kem_denied s m -> exists e, kem_verify v m s = (s, RErr e m).
Proof.
  intros (tx & Ht & Hk). unfold kem_verify. unfold bindM at 1, get at 1.
  assert (A : exists e, (t <- octets m (m_tx m) ;;
      match kem_find (s_kem s) t with
      | None => raise m EBadMessageCheck
      | Some k =>
          if body_eqb (m_body m) B_certConf then lift m (v_kem v m (ke_ss k))
          else if ke_used k then raise m EBadMessageCheck
          else lift m (v_kem v m (ke_ss k))
      end) s = (s, RErr e m)).
  { rewrite Ht. unfold bindM, octets, ret.
    destruct Hk as [-> | (Hb & k & -> & Hu)]; [eexists; reflexivity |].
    destruct (body_eqb (m_body m) B_certConf) eqn:Eb; [apply body_eqb_eq in Eb; contradiction |].
    rewrite Hu. eexists; reflexivity. }
  destruct (s_kem s); [eexists; reflexivity | exact A].
Qed.

Lemma verify_protection_denied v m s : has_prot_type w m PT_KEM = true -> kem_denied s m ->
  exists e, verify_protection w v m s = (s, RErr e m).
Proof.
  intros Hk Hd. apply kem_prot in Hk. destruct Hk as (Hp & oid & Ha).
  destruct (kem_verify_denied v m s Hd) as (e & Ek).
  unfold verify_protection, stfl_validate, protection_present. rewrite Ha, Hp. unfold bindM.
  destruct (v_alg_ok v oid); [| eexists; reflexivity].
  destruct (m_prot m); cbn -[kem_verify]; rewrite ?Ek; eexists; reflexivity.
Qed.

Lemma validate_protection_denied v m x s : has_prot_type w m PT_KEM = true -> kem_denied s m ->
  exists e, validate_protection w v m x s = (s, RErr e m).
Proof.
  intros Hk Hd. apply kem_prot in Hk. destruct Hk as (Hp & oid & Ha).
  unfold validate_protection. rewrite Ha, Hp. unfold bindM. cbn.
  destruct (wrong_integrity w m); cbn; [| eexists; reflexivity].
  apply (kem_verify_denied v m s Hd).
Qed.

Lemma kem_mark_none l tx : kem_find l tx = None -> kem_mark l tx = l.
Proof.
  unfold kem_find, kem_mark. induction l as [| k l IH]; cbn; [reflexivity |].
  destruct (bytes_eqb tx (ke_tx k)); [discriminate |]. intros E. now rewrite (IH E).
Qed.

Lemma set_kem_id s : set_kem s (s_kem s) = s. Proof. destruct s; reflexivity. Qed.

(** [silent s o]: nothing changed and the reply, if any, is negative *)
Definition silent (s : ca) (o : ca * res resp) : Prop := fst o = s /\ forall r, snd o = ROk r -> r_ok r = false.
Lemma silent_raise s m e : silent s (raise m e s). Proof. split; [reflexivity | discriminate]. Qed.
Lemma silent_reply v m b e s : silent s (reply_to v m b false e [] s).
Proof.
  split; [apply pure_reply_to |]. intros r E. destruct (reply_to v m b false e [] s) as [s1 y] eqn:Er. cbn in E. subst y.
  apply reply_to_ok in Er. destruct Er as (_ & ? & ? & _ & _ & ->). reflexivity.
Qed.
Lemma silent_catch p h s : silent s (p s) -> (forall e x q, h e x = Some q -> silent s (q s)) -> silent s (catch p h s).
Proof.
  intros Hp Hh. unfold catch. destruct (p s) as [s1 [r | e x]]; [exact Hp |].
  destruct Hp as [Hs _]. cbn in Hs. subst s1. destruct (h e x) as [q |] eqn:Eh; [eauto | apply silent_raise].
Qed.

Lemma rr_denied v m s tx : has_prot_type w m PT_KEM = true -> m_tx m = Some tx -> kem_find (s_kem s) tx = None ->
  silent s (process_rr w v m s).
Proof.
  intros Hk Ht Hf.
  assert (R : exists e, rr_protection w v m None = Err e).
  { unfold rr_protection. apply kem_prot in Hk. destruct Hk as (Hp & oid & Ha). rewrite Ha. rewrite ?Hp. destruct (m_prot m); cbn; eauto. }
  destruct R as (e & R).
  assert (C : forall p, rp_catch v m (bindM (lift m (rr_protection w v m None)) p) s = rp_catch v m (raise m e) s).
  { intros p. unfold rp_catch, catch, bindM. now rewrite R. }
  assert (D : silent s (rp_catch v m (raise m e) s)).
  { apply silent_catch; [apply silent_raise |]. intros e' x q Eq. destruct e'; cbn in Eq; try discriminate;
      injection Eq as <-; apply silent_reply. }
  unfold process_rr. unfold bindM at 1, get at 1. destruct (s_kem s) as [| k0 l] eqn:Ek.
  - unfold bindM at 1, ret at 1. cbv zeta. rewrite C. exact D.
  - rewrite Ht. unfold bindM at 1. unfold bindM at 1. cbn [octets]. unfold ret at 1 2. cbv zeta.
    rewrite Hf. cbn [option_map]. rewrite C. exact D.
Qed.

(** a KEM-protected message without a (fresh) secret has no effect *)
Lemma kem_rejected s m v : has_prot_type w m PT_KEM = true -> kem_denied s m ->
  (m_body m = B_rr -> exists tx, m_tx m = Some tx /\ kem_find (s_kem s) tx = None) ->
  fst (step w s (m, v)) = s /\ accepted (snd (step w s (m, v))) = false.
Proof.
  intros Hk Hd Hrr. destruct (step w s (m, v)) as [s' o] eqn:E. cbn [fst snd]. apply step_outcome in E.
  destruct (body_eqb (m_body m) B_rr) eqn:Er; [apply body_eqb_eq in Er | assert (Nr : m_body m <> B_rr) by (intros X; rewrite X in Er; discriminate); clear Hrr].
  - (* rr *)
    destruct (Hrr Er) as (tx & Ht & Hf). clear Hrr Hd.
    assert (P : pure (pre w v m)).
    { unfold pre. rewrite Er. cbn [body_in existsb body_eqb orb]. purify; [apply pure_compromised | apply pure_not_confirmed]. }
    assert (Q : fst (dispatch w v m s) = s /\ forall fl, snd (dispatch w v m s) = ROk fl -> r_ok (flow_resp fl) = false).
    { unfold dispatch. rewrite Er. cbn [body_in existsb body_eqb andb orb].
      unfold bindM at 1 3.
      match goal with |- context [catch ?p ?h s] => assert (S : silent s (catch p h s)) end.
      { apply silent_catch.
        - unfold bindM. destruct (validate_header w v m true false); cbn [lift]; [| apply silent_raise].
          unfold ret. eapply rr_denied; eauto.
        - intros e' x q Eq. destruct e'; try discriminate; injection Eq as <-; apply silent_reply. }
      destruct S as [S1 S2]. destruct (catch _ _ s) as [s1 [r | e x]]; cbn in *; split; auto.
      - intros fl X. injection X as <-. cbn. auto.
      - discriminate. }
    destruct Q as [Q Qr].
    destruct E as [e E Ha _ | s1 e x E Ed Ha _ | s1 r E Ed -> | s1 s2 r E Ed -> Ho];
      (apply (pure_state _ _ _ _ P) in E; subst).
    + auto.
    + rewrite Ed in Q. auto.
    + rewrite Ed in Q, Qr. split; [exact Q |]. apply (Qr _ eq_refl).
    + rewrite Ed in Q, Qr. cbn in Q. subst s2. split.
      * unfold kem_update. destruct (m_alg m); [| reflexivity]. rewrite Hk. unfold bindM, get.
        destruct (s_kem s) eqn:Ek; rewrite Ht; cbn; [reflexivity |]. rewrite Ek, kem_mark_none by exact Hf.
        rewrite <- Ek. apply set_kem_id.
      * specialize (Qr _ eq_refl). cbn in Qr. destruct Ho as [-> | ->]; [exact Qr | reflexivity].
  - destruct (body_eqb (m_body m) B_genm) eqn:Eg.
    + (* genm *) apply body_eqb_eq in Eg.
      assert (P : pure (pre w v m)).
      { unfold pre. rewrite Eg. cbn [body_in existsb body_eqb orb]. purify; apply pure_not_confirmed. }
      assert (Q : exists e x, dispatch w v m s = (s, RErr e x)).
      { unfold dispatch. rewrite Eg. cbn [body_in existsb body_eqb andb orb]. unfold bindM at 1.
        destruct (validate_header w v m false false); cbn [lift ret raise]; unfold raise, ret; [| eauto].
        unfold bindM at 1. unfold process_genm.
        destruct (kem_prot m Hk) as (_ & oid & Ha). rewrite Ha.
        destruct (validate_protection_denied v m false s Hk Hd) as (e & Ee).
        destruct (m_genm m); [unfold raise; eauto | |]; unfold bindM at 1; rewrite Ee; eauto. }
      destruct Q as (e0 & x0 & Q).
      destruct E as [e E Ha _ | s1 e x E Ed Ha _ | s1 r E Ed -> | s1 s2 r E Ed -> Ho];
        (apply (pure_state _ _ _ _ P) in E; subst); auto; rewrite Q in Ed; inversion Ed; subst; auto.
    + assert (Pv : exists e x, pre w v m s = (s, RErr e x)).
      { unfold pre. unfold bindM at 1, get at 1. unfold bindM at 1.
        assert (F : body_in (m_body m) [B_rr; B_genm] = false).
        { cbn. rewrite Er, Eg. reflexivity. }
        rewrite F. destruct (verify_protection_denied v m s Hk Hd) as (e & Ee).
        destruct (m_extra m) as [| c l].
        - unfold ret at 1. unfold bindM at 1. rewrite Ee. eauto.
        - destruct (not_allowed w v m c s); cbn; [unfold ret; unfold bindM at 1; rewrite Ee; eauto | eauto]. }
      destruct Pv as (e0 & x0 & Pv).
      destruct E as [e E Ha _ | s1 e x E Ed Ha _ | s1 r E Ed -> | s1 s2 r E Ed -> Ho];
        rewrite Pv in E; inversion E; subst; auto.
Qed.

Lemma kem_denied_none s m tx : m_tx m = Some tx -> kem_find (s_kem s) tx = None -> kem_denied s m.
Proof. intros Ht Hf. exists tx. auto. Qed.

Definition kem_known (tx : bytes) (s : ca) : Prop := exists k, kem_find (s_kem s) tx = Some k.
Definition kem_spent (tx : bytes) (s : ca) : Prop := exists k, kem_find (s_kem s) tx = Some k /\ ke_used k = true.

Lemma kem_find_add l ss tx0 snd tx k : kem_find l tx = Some k -> kem_find (kem_add l ss tx0 snd) tx = Some k.
Proof.
  unfold kem_find, kem_add. induction l as [| x l IH]; cbn; [discriminate |]. destruct (bytes_eqb tx (ke_tx x)); auto.
Qed.
Lemma kem_find_mark l tx0 tx k : kem_find l tx = Some k ->
  exists k', kem_find (kem_mark l tx0) tx = Some k' /\ ke_ss k' = ke_ss k /\
    (ke_used k = true -> ke_used k' = true) /\ (tx0 = tx -> ke_used k' = true).
Proof.
  unfold kem_find, kem_mark. induction l as [| x l IH]; cbn; [discriminate |].
  destruct (bytes_eqb tx (ke_tx x)) eqn:Et.
  - intros E. injection E as <-. destruct (bytes_eqb tx0 (ke_tx x)) eqn:E0; cbn; rewrite Et.
    + eexists. split; [reflexivity |]. cbn. auto.
    + eexists. split; [reflexivity |]. split; [reflexivity |]. split; [auto |]. intros ->. congruence.
  - destruct (bytes_eqb tx0 (ke_tx x)); cbn; rewrite Et; exact IH.
Qed.

(** a property of the state that every primitive update keeps *)
Definition stable (P : ca -> Prop) : Prop := forall v q s s', prim w v q s s' -> P s -> P s'.
Lemma stable_tree P v m s s' : stable P -> tree w v m s s' -> P s -> P s'.
Proof. intros G T. induction T as [a b (q & _ & Hp) | a | a b c _ I1 _ I2]; eauto. Qed.
Lemma stable_run P h : stable P -> forall s, P s -> P (run w s h).
Proof.
  intros G. induction h as [| [m v] h IH]; intros s Hs; [exact Hs |]. cbn. apply IH.
  eapply stable_tree; [exact G | apply step_tree | exact Hs].
Qed.
Lemma stable_known tx : stable (kem_known tx).
Proof.
  intros v q s s' P (k & Hk). destruct P; cbn [s_kem set_tx set_kem set_chal set_db set_conf set_stfl set_cross];
    try (exists k; exact Hk).
  - exists k. cbn. now apply kem_find_add.
  - cbn. apply (kem_find_mark _ tx0) in Hk. destruct Hk as (k' & Hk & _). exists k'. exact Hk.
Qed.
Lemma stable_spent tx : stable (kem_spent tx).
Proof.
  intros v q s s' P (k & Hk & Hu). destruct P; cbn [s_kem set_tx set_kem set_chal set_db set_conf set_stfl set_cross];
    try (exists k; auto; fail).
  - exists k. split; [| exact Hu]. cbn. now apply kem_find_add.
  - cbn. apply (kem_find_mark _ tx0) in Hk. destruct Hk as (k' & Hk & _ & Hs & _). exists k'. auto.
Qed.

Lemma kem_spent_after s m v s' o tx :
  step w s (m, v) = (s', o) -> has_prot_type w m PT_KEM = true -> m_tx m = Some tx ->
  accepted o = true -> spends m = true -> kem_spent tx s'.
Proof.
  intros E Hk Ht Hacc Hsp.
  assert (Kn : kem_known tx s).
  { unfold kem_known. destruct (kem_find (s_kem s) tx) as [k |] eqn:Ef; [eauto |].
    destruct (kem_rejected s m v Hk (kem_denied_none _ _ _ Ht Ef)) as [_ R]; [intros; eauto |].
    rewrite E in R. cbn in R. congruence. }
  apply step_outcome in E. destruct E as [e _ Ha _ | s1 e x _ _ Ha _ | s1 r Ep Ed -> | s1 s2 r Ep Ed -> _]; try congruence.
  - exfalso. apply dispatch_ok in Ed. unfold spends in Hsp.
    inversion Ed as [r0 [Hb | Hb] Hc _ | | r0 Hb _ | | | | | r0 Hb _ _]; subst; rewrite Hb in Hsp; try rewrite Hc in Hsp; discriminate.
  - assert (K2 : kem_known tx s2).
    { eapply stable_tree with (s := s1) (v := v) (m := m); [apply stable_known | |].
      - pose proof (pr_dispatch w v m s1) as T. rewrite Ed in T. exact T.
      - pose proof (pre_stfl w v m s) as S. rewrite Ep in S. destruct S as (t & S). cbn in S. subst s1. exact Kn. }
    destruct K2 as (k & K2). unfold kem_update. apply kem_prot in Hk as Hk'. destruct Hk' as (_ & oid & Ha).
    rewrite Ha, Hk. unfold bindM, get. destruct (s_kem s2) as [| k0 l] eqn:Ek; [discriminate |].
    rewrite Ht. cbn [octets ret]. unfold ret, modify. cbn [fst].
    destruct (kem_find_mark _ tx _ _ K2) as (k' & Hf & _ & _ & Hu). exists k'. split; [cbn [set_kem s_kem]; rewrite Ek; exact Hf | now apply Hu].
Qed.

Lemma kem_once s m1 v1 h m2 v2 tx s1 o1 :
  step w s (m1, v1) = (s1, o1) -> accepted o1 = true -> spends m1 = true ->
  has_prot_type w m1 PT_KEM = true -> m_tx m1 = Some tx ->
  has_prot_type w m2 PT_KEM = true -> m_tx m2 = Some tx -> m_body m2 <> B_certConf -> m_body m2 <> B_rr ->
  let s2 := run w s1 h in
  fst (step w s2 (m2, v2)) = s2 /\ accepted (snd (step w s2 (m2, v2))) = false.
Proof.
  intros E Ha Hs Hk1 Ht1 Hk2 Ht2 Hc Hr s2. apply kem_rejected; [exact Hk2 | | intros X; contradiction].
  exists tx. split; [exact Ht2 |]. right. split; [exact Hc |].
  apply (stable_run (kem_spent tx) h (stable_spent tx)). eapply kem_spent_after; eauto.
Qed.

(** the secret was agreed in an earlier genm exchange of the same transaction *)
Definition kem_inv (h : history) (s : ca) : Prop :=
  forall k, In k (s_kem s) -> exists m v q, In (m, v) h /\ contains m q /\ m_body q = B_genm /\
    m_tx q = Some (ke_tx k) /\ v_ss v q = Ok (ke_ss k).
Lemma kem_inv_tree h m v s s' : In (m, v) h -> kem_inv h s -> tree w v m s s' -> kem_inv h s'.
Proof.
  intros Hi I T. induction T as [a b (q & Hq & P) | a | a b c _ I1 _ I2]; auto.
  intros k Hk. apply part_contains in Hq. destruct P; cbn in Hk; auto.
  - apply in_app_or in Hk. destruct Hk as [Hk | [<- | []]]; [auto |]. exists m, v, q. repeat split; auto.
  - apply in_map_iff in Hk. destruct Hk as (k0 & <- & Hk0). specialize (I k0 Hk0).
    destruct (bytes_eqb tx (ke_tx k0)); exact I.
Qed.
Lemma kem_inv_after h : kem_inv h (after w h).
Proof.
  induction h as [| [m v] h IH] using rev_ind; [intros k [] |].
  unfold after in *. rewrite run_app. cbn [run fold_left].
  eapply kem_inv_tree with (m := m) (v := v); [apply in_or_app; right; now left | | apply step_tree].
  intros k Hk. destruct (IH k Hk) as (m0 & v0 & q & A & B). exists m0, v0, q. split; [apply in_or_app; now left | exact B].
Qed.

Lemma kem_verify_ok v m s s' x : kem_verify v m s = (s', ROk x) ->
  exists tx k, m_tx m = Some tx /\ kem_find (s_kem s) tx = Some k /\ v_kem v m (ke_ss k) = Ok tt.
Proof.
  unfold kem_verify. intros E. apply bindM_ok in E. destruct E as (s0 & s0' & E0 & E). apply get_ok in E0. destruct E0 as [-> ->].
  destruct (s_kem s) as [| k0 l] eqn:Ek; [minv |].
  apply bindM_ok in E. destruct E as (tx & s1 & E1 & E). apply octets_ok in E1. destruct E1 as [-> Ht].
  destruct (kem_find (k0 :: l) tx) as [k |] eqn:Ef; [| minv].
  exists tx, k. split; [exact Ht |]. split; [exact Ef |].
  destruct x. destruct (body_eqb (m_body m) B_certConf); [minv; assumption |].
  destruct (ke_used k); minv; assumption.
Qed.

(** an accepted KEM-protected message verified under the secret of its transaction *)
Lemma kem_authentic s m v s' o :
  step w s (m, v) = (s', o) -> accepted o = true -> has_prot_type w m PT_KEM = true ->
  exists tx k, m_tx m = Some tx /\ kem_find (s_kem s) tx = Some k /\ v_kem v m (ke_ss k) = Ok tt.
Proof.
  intros E Ha Hk. apply kem_prot in Hk as Hp. destruct Hp as (Hp & oid & Hal).
  apply step_outcome in E.
  assert (X : exists s1 s2 fl, pre w v m s = (s1, ROk tt) /\ dispatch w v m s1 = (s2, ROk fl) /\ r_ok (flow_resp fl) = true).
  { destruct E as [e _ Hf _ | s1 e x _ _ Hf _ | s1 r Ep Ed -> | s1 s2 r Ep Ed _ [-> | ->]]; cbn in Ha; try congruence; eauto 8. }
  clear E. destruct X as (s1 & s2 & fl & Ep & Ed & Hok).
  apply pre_pre_ok in Ep. destruct Ep as (_ & Hv & _).
  destruct (body_in (m_body m) [B_rr; B_genm]) eqn:Eb.
  - subst s1. apply dispatch_ok in Ed.
    destruct Ed as [r0 [Hb | Hb] Hc E0 | r0 Hb E0 | r0 Hb E0 | s3 s4 r0 Hb E1 E2 E3 | r0 Hb E0 _ | e r0 Hb He _ _ E0 | r0 Hb E0 | r0 Hb E0 _];
      rewrite ?Hb in Eb; try discriminate.
    + destruct (m_body m); discriminate.
    + (* rr *) unfold process_rr in E0.
      apply bindM_ok in E0. destruct E0 as (s0 & s0' & E1 & E0). apply get_ok in E1. destruct E1 as [-> ->].
      apply bindM_ok in E0. destruct E0 as (tx & s1 & E1 & E0). cbv zeta in E0.
      apply rp_catch_ok in E0. destruct E0 as [E0 | (e & x & _ & e' & E0)].
      2: { unfold rp_error in E0. apply reply_to_ok in E0. destruct E0 as (_ & ? & ? & _ & _ & ->). discriminate. }
      apply bindM_ok in E0. destruct E0 as ([] & s3 & E2 & _). apply lift_ok in E2. destruct E2 as [_ E2].
      unfold rr_protection in E2. destruct (m_prot m); [| discriminate]. rewrite Hal, Hp in E2. cbn [bind ptype_eqb] in E2.
      destruct tx as [tx |]; [| discriminate].
      destruct (kem_find (s_kem s) tx) as [k |] eqn:Ef; [| discriminate]. cbn [option_map] in E2.
      destruct (v_kem v m (ke_ss k)) as [[] |] eqn:Ev; [| discriminate].
      exists tx, k. split; [| auto]. destruct (s_kem s); [discriminate |].
      apply bindM_ok in E1. destruct E1 as (t & s4 & E1 & E3). apply octets_ok in E1. destruct E1 as [_ E1].
      apply ret_ok in E3. destruct E3 as [_ E3]. congruence.
    + unfold rp_error in E0. apply reply_to_ok in E0. destruct E0 as (_ & ? & ? & _ & _ & ->). discriminate.
    + (* genm *) unfold process_genm in E0. rewrite Hal in E0.
      assert (V : exists s3 x, validate_protection w v m false s = (s3, ROk x)).
      { destruct (m_genm m); [minv | |]; apply bindM_ok in E0; destruct E0 as (x & s3 & E1 & _); eauto. }
      destruct V as (s3 & x & V). unfold validate_protection in V. rewrite Hal, Hp in V.
      apply bindM_ok in V. destruct V as (t & s4 & V1 & V). apply lift_ok in V1. destruct V1 as [-> V1]. injection V1 as <-.
      apply bindM_ok in V. destruct V as ([] & s4 & V1 & V). apply lift_ok in V1. destruct V1 as [-> _].
      eapply kem_verify_ok; eauto.
  - unfold verify_protection in Hv. rewrite Hal in Hv.
    apply bindM_ok in Hv. destruct Hv as ([] & s3 & V1 & Hv). destruct (v_alg_ok v oid); [| minv].
    apply ret_ok in V1. destruct V1 as [-> _].
    apply bindM_ok in Hv. destruct Hv as (p & s4 & V1 & Hv). apply lift_ok in V1. destruct V1 as [-> V1].
    unfold protection_present in V1. rewrite Hal in V1. destruct (m_prot m); [| discriminate]. injection V1 as <-.
    apply bindM_ok in Hv. destruct Hv as ([] & s4 & V1 & Hv).
    unfold stfl_validate in V1. rewrite Hal, Hp in V1. cbn in V1. inversion V1; subst s4.
    rewrite Hp in Hv. apply bindM_ok in Hv. destruct Hv as (t & s4 & V2 & Hv). apply lift_ok in V2. destruct V2 as [-> V2]. injection V2 as <-.
    cbn [ptype_eqb] in Hv. eapply kem_verify_ok; eauto.
Qed.

(** *** C13: challenges *)
Definition chal_keys (s : ca) : Prop := NoDup (map fst (s_chal s)).
Lemma stable_chal_keys : stable chal_keys.
Proof.
  intros v q s s' P K. unfold chal_keys in *. destruct P; cbn; try exact K.
  - apply dset_nodup; [apply chal_eqb_spec | exact K].
  - apply ddel_nodup; [exact K].
Qed.
Lemma chal_keys_after h : chal_keys (after w h).
Proof. unfold after. apply stable_run; [apply stable_chal_keys | constructor]. Qed.

Lemma tree_chal v m s s' n tx : tree w v m s s' -> chal_keys s ->
  dget chal_eqb (n, tx) (s_chal s') <> None -> dget chal_eqb (n, tx) (s_chal s) <> None \/ challenged [(m, v)] n tx.
Proof.
  intros T. induction T as [a b (q & Hq & P) | a | a b c T1 I1 T2 I2]; intros K Hs; auto.
  - destruct P as [| | | n0 tx0 t0 Ht Hc Hch Hb | n0 tx0 Ht Hb | | | | | | | | |]; cbn in Hs; auto.
    + destruct (chal_eqb (n, tx) (n0, tx0)) eqn:Ek.
      * apply chal_eqb_spec in Ek. injection Ek as -> ->. right. exists m, v, q.
        apply part_contains in Hq. repeat split; auto. now left.
      * left. rewrite dget_dset_other in Hs; [exact Hs | apply chal_eqb_spec |].
        intros X. apply chal_eqb_spec in X. congruence.
    + left. intros N. apply Hs. apply dget_ddel_none; [apply chal_eqb_spec | exact N].
  - assert (Kb : chal_keys b). { eapply stable_tree; [apply stable_chal_keys | exact T1 | exact K]. }
    destruct (I2 Kb Hs) as [X | X]; auto.
Qed.

Lemma challenged_mono h h' n tx : incl h h' -> challenged h n tx -> challenged h' n tx.
Proof. intros Hi (m & v & q & A & B). exists m, v, q. auto. Qed.

Lemma run_chal h n tx : forall s, chal_keys s -> outstanding (run w s h) n tx -> outstanding s n tx \/ challenged h n tx.
Proof.
  induction h as [| [m v] h IH]; intros s K Ho; [auto |]. cbn in Ho.
  assert (K1 : chal_keys (fst (step w s (m, v)))). { eapply stable_tree; [apply stable_chal_keys | apply step_tree | exact K]. }
  destruct (IH _ K1 Ho) as [X | X].
  - destruct (tree_chal v m s _ n tx (step_tree w s m v) K X) as [Y | Y]; [auto |].
    right. eapply challenged_mono; [| exact Y]. intros x [<- | []]. now left.
  - right. eapply challenged_mono; [| exact X]. apply incl_tl, incl_refl.
Qed.

Lemma popdecr_loop_ok v m tx ns : forall b acc s s' b' acc',
  popdecr_loop v m tx ns b acc s = (s', ROk (b', acc')) -> chal_keys s ->
  NoDup ns /\ (forall n, In n ns -> outstanding s n tx /\ ~ outstanding s' n tx) /\
  (forall n, ~ In n ns -> dget chal_eqb (n, tx) (s_chal s') = dget chal_eqb (n, tx) (s_chal s)) /\
  length acc' = (length acc + length ns)%nat /\ (b' <> None -> b <> None \/ ns <> []).
Proof.
  induction ns as [| n ns IH]; intros b acc s s' b' acc' E K; cbn [popdecr_loop] in E.
  - apply ret_ok in E. destruct E as [-> E]. injection E as -> ->.
    split; [constructor |]. split; [intros n [] |]. split; [auto |]. split; [cbn; lia | auto].
  - apply bindM_ok in E. destruct E as (s0 & s0' & E0 & E). apply get_ok in E0. destruct E0 as [-> ->].
    destruct (dget chal_eqb (n, tx) (s_chal s)) as [[t bd] |] eqn:Eg; [| minv].
    apply bindM_ok in E. destruct E as (c & s1 & E1 & E). apply lift_ok in E1. destruct E1 as [-> _].
    apply bindM_ok in E. destruct E as ([] & s1 & E1 & E). apply modify_ok in E1. subst s1.
    assert (K1 : chal_keys (set_chal s (ddel chal_eqb (n, tx) (s_chal s)))).
    { unfold chal_keys. cbn. now apply ddel_nodup. }
    assert (Gn : dget chal_eqb (n, tx) (ddel chal_eqb (n, tx) (s_chal s)) = None).
    { apply dget_ddel_same; [apply chal_eqb_spec | exact K]. }
    assert (Go : forall n', n' <> n -> dget chal_eqb (n', tx) (ddel chal_eqb (n, tx) (s_chal s)) = dget chal_eqb (n', tx) (s_chal s)).
    { intros n' Hn. apply dget_ddel_other; [apply chal_eqb_spec | congruence]. }
    apply IH in E; [| exact K1]. destruct E as (N & O & U & L & _). cbn [set_chal s_chal] in U.
    assert (Nn : ~ In n ns).
    { intros X. destruct (O n X) as [Y _]. unfold outstanding in Y. cbn in Y. contradiction. }
    split; [constructor; assumption |]. split; [| split].
    + intros n' [<- | Hn'].
      * split; [unfold outstanding; rewrite Eg; discriminate |]. unfold outstanding. rewrite U by exact Nn. rewrite Gn. auto.
      * destruct (O n' Hn') as [Y1 Y2]. split; [| exact Y2]. unfold outstanding in *. cbn in Y1.
        intros Z. apply Y1. apply dget_ddel_none; [apply chal_eqb_spec | exact Z].
    + intros n' Hn'. rewrite U by (intros X; apply Hn'; now right). apply Go. intros ->. apply Hn'. now left.
    + rewrite app_length in L. cbn in L. split; [cbn; lia |]. intros _. right. discriminate.
Qed.

Lemma popdecr_step s m v s' r :
  step w s (m, v) = (s', Reply r) -> m_body m = B_popdecr -> r_ok r = true -> chal_keys s ->
  exists tx, m_tx m = Some tx /\ m_popdecr m <> [] /\ NoDup (m_popdecr m) /\
    (forall n, In n (m_popdecr m) -> outstanding s n tx /\ ~ outstanding s' n tx) /\
    length (r_certs r) = length (m_popdecr m) /\ r_tx r = Some tx.
Proof.
  intros E Hb Hok K. apply step_outcome in E.
  destruct E as [e _ Hf _ | s1 e x _ _ Hf _ | s1 r0 Ep Ed Ho | s1 s2 r0 Ep Ed Hs Ho]; try (cbn in Hf; congruence).
  - apply dispatch_ok in Ed. inversion Ed as [r1 [Hb' | Hb'] Hc _ | | r1 Hb' _ | | | | | r1 Hb' _ _]; subst; congruence.
  - destruct Ho as [Ho | Ho]; [| discriminate]. injection Ho as <-.
    pose proof (pre_only_stfl _ _ _ _ _ _ Ep) as S. destruct S as (t & ->).
    assert (Hc' : s_chal s' = s_chal s2). { rewrite Hs. destruct (kem_update_only w m s2) as (k & ->). reflexivity. }
    apply dispatch_ok in Ed.
    inversion Ed as [| r1 Hb' E0 | | s3 s4 r1 Hb' _ _ _ | r1 Hb' _ _ | e r1 Hb' _ _ _ _ | r1 Hb' _ |]; subst r1; try (rewrite Hb in Hb'; discriminate).
    unfold process_popdecr in E0.
    apply bindM_ok in E0. destruct E0 as (tx & s3 & E1 & E0). apply octets_ok in E1. destruct E1 as [-> Ht].
    apply bindM_ok in E0. destruct E0 as ([b cs] & s4 & E1 & E0). cbn [fst snd] in E0.
    apply popdecr_loop_ok in E1; [| exact K]. destruct E1 as (N & O & U & L & Nn).
    destruct b as [b |]; [| minv]. destruct b; try (minv; fail).
    apply bindM_ok in E0. destruct E0 as ([] & s5 & E2 & E0). apply lift_ok in E2. destruct E2 as [-> _].
    apply bindM_ok in E0. destruct E0 as (r1 & s6 & E1 & E0).
    apply reply_to_ok in E1. destruct E1 as (-> & t0 & n & Ht0 & _ & ->).
    apply bindM_ok in E0. destruct E0 as ([] & s7 & E1 & E0). cbn in E1. inversion E1; subst s7.
    apply ret_ok in E0. destruct E0 as [-> ->]. cbn.
    exists tx. split; [exact Ht |]. split; [| split; [exact N | split]].
    + destruct Nn as [X | X]; [discriminate | contradiction | exact X].
    + intros n0 Hn0. destruct (O n0 Hn0) as [A B]. split; [exact A |]. unfold outstanding in *. rewrite Hc'. exact B.
    + rewrite L. split; [reflexivity | congruence].
Qed.

(** an answered challenge is gone for good, unless the same value is issued again in the
    same transaction *)
Lemma challenge_once s m v s' r h m2 v2 n tx :
  step w s (m, v) = (s', Reply r) -> m_body m = B_popdecr -> r_ok r = true -> chal_keys s ->
  m_tx m = Some tx -> In n (m_popdecr m) -> ~ challenged h n tx ->
  m_body m2 = B_popdecr -> m_tx m2 = Some tx -> In n (m_popdecr m2) ->
  accepted (snd (step w (run w s' h) (m2, v2))) = false.
Proof.
  intros E Hb Hok K Ht Hn Hh Hb2 Ht2 Hn2.
  assert (K' : chal_keys s').
  { eapply stable_tree with (s := s) (v := v) (m := m); [apply stable_chal_keys | | exact K].
    pose proof (step_tree w s m v) as T. rewrite E in T. exact T. }
  apply popdecr_step in E; auto. destruct E as (tx' & Ht' & _ & _ & O & _). rewrite Ht in Ht'. injection Ht' as <-.
  destruct (O n Hn) as [_ G].
  assert (K2 : chal_keys (run w s' h)) by (apply stable_run; [apply stable_chal_keys | exact K']).
  destruct (step w (run w s' h) (m2, v2)) as [s3 o2] eqn:E2. cbn [snd].
  destruct o2 as [r2 |]; [| reflexivity]. destruct (r_ok r2) eqn:Hr2; [| exact Hr2].
  apply popdecr_step in E2; auto. destruct E2 as (tx2 & Ht2' & _ & _ & O2 & _). rewrite Ht2 in Ht2'. injection Ht2' as <-.
  destruct (O2 n Hn2) as [G2 _]. apply run_chal in G2; [| exact K']. tauto.
Qed.

(** *** C14: one-time signatures *)
Definition burned (s : ca) (x : bytes * Z) : Prop :=
  exists l, dget bytes_eqb (fst x) (s_stfl s) = Some l /\ In (snd x) l.

Definition bgrow (s s' : ca) : Prop := forall x, burned s x -> burned s' x.
Definition bfresh (s s' : ca) (l : list (bytes * Z)) : Prop :=
  NoDup l /\ (forall x, In x l -> ~ burned s x /\ burned s' x) /\ bgrow s s'.

Lemma bgrow_refl s : bgrow s s. Proof. intros x; auto. Qed.
Lemma bgrow_trans a b c : bgrow a b -> bgrow b c -> bgrow a c. Proof. intros A B x Hx. auto. Qed.
Lemma bfresh_nil s s' : bgrow s s' -> bfresh s s' [].
Proof. intros Hi. split; [constructor | split; [intros x [] | exact Hi]]. Qed.
Lemma bfresh_app s s1 s2 l1 l2 : bfresh s s1 l1 -> bfresh s1 s2 l2 -> bfresh s s2 (l1 ++ l2).
Proof.
  intros (N1 & F1 & I1) (N2 & F2 & I2). split; [| split].
  - clear I1 I2. induction l1 as [| x l1 IH]; [exact N2 |]. inversion N1; subst. cbn. constructor.
    + intros Hx. apply in_app_or in Hx. destruct Hx as [Hx | Hx]; [contradiction |].
      destruct (F1 x (or_introl eq_refl)) as [_ A]. destruct (F2 x Hx) as [B _]. contradiction.
    + apply IH; [assumption |]. intros y Hy. apply F1. now right.
  - intros x Hx. apply in_app_or in Hx. destruct Hx as [Hx | Hx].
    + destruct (F1 x Hx) as [A B]. split; [exact A | apply I2, B].
    + destruct (F2 x Hx) as [A B]. split; [intros C; apply A, I1, C | exact B].
  - eapply bgrow_trans; eassumption.
Qed.
Lemma bfresh_after s s1 s2 l : bfresh s s1 l -> bgrow s1 s2 -> bfresh s s2 l.
Proof. intros A B. rewrite <- (app_nil_r l). eapply bfresh_app; [exact A | now apply bfresh_nil]. Qed.
Lemma bfresh_before s s1 s2 l : bgrow s s1 -> bfresh s1 s2 l -> bfresh s s2 l.
Proof. intros A B. change l with ([] ++ l). eapply bfresh_app; [apply bfresh_nil, A | exact B]. Qed.

Lemma bgrow_set s k l l' : dget bytes_eqb k (s_stfl s) = Some l \/ dget bytes_eqb k (s_stfl s) = None /\ l = [] ->
  incl l l' -> bgrow s (set_stfl s (dset bytes_eqb k l' (s_stfl s))).
Proof.
  intros Hk Hi [k0 i] (l0 & G & I). unfold burned. cbn in *. destruct (bytes_eq_dec k0 k) as [-> | N].
  - rewrite dget_dset_same by apply bytes_eqb_eq. exists l'. split; [reflexivity |].
    destruct Hk as [Hk | [Hk _]]; rewrite G in Hk; [injection Hk as ->; auto | discriminate].
  - rewrite dget_dset_other by (exact N || apply bytes_eqb_eq). eauto.
Qed.
Lemma bgrow_prim v q s s' : prim w v q s s' -> bgrow s s'.
Proof.
  intros P. destruct P; try (intros [k0 i0] B; exact B).
  - eapply bgrow_set; [left; eassumption | apply incl_appl, incl_refl].
  - eapply bgrow_set with (l := []); [right; auto | intros x []].
Qed.
Lemma bgrow_tree v m s s' : tree w v m s s' -> bgrow s s'.
Proof.
  intros T. induction T as [a b (q & _ & P) | a | a b c _ I1 _ I2].
  - eapply bgrow_prim; eauto.
  - apply bgrow_refl.
  - eapply bgrow_trans; eauto.
Qed.
Lemma bgrow_steps v q s s' : steps w v q s s' -> bgrow s s'.
Proof. intros T. eapply bgrow_tree, steps_tree; [apply part_self | exact T]. Qed.

Lemma own_sig_other m t : prot_type w m = Ok t -> t <> PT_STFL -> own_sig w m = [].
Proof.
  unfold own_sig, has_prot_type. intros -> N.
  destruct (ptype_eqb PT_STFL t) eqn:X; [apply ptype_eqb_eq in X; congruence | reflexivity].
Qed.
Lemma own_sig_unprotected m : m_alg m = None -> own_sig w m = [].
Proof. unfold own_sig, has_prot_type, prot_type. now intros ->. Qed.

Lemma use_fresh m c sig i s l : has_prot_type w m PT_STFL = true -> hd_error (m_extra m) = Some c -> m_prot m = Some sig ->
  w_sig_index w c sig = Ok i -> stfl_state w s c = Some l -> existsb (Z.eqb i) l = false ->
  bfresh s (fst (stfl_use w c i s)) (own_sig w m).
Proof.
  intros Hp Hc Hs Hi Hl Hn. unfold own_sig. rewrite Hp. destruct (m_extra m) as [| c0 ?]; [discriminate |]. injection Hc as ->.
  rewrite Hs, Hi. unfold stfl_use, modify. cbn [fst]. rewrite Hl. unfold stfl_state in Hl.
  split; [constructor; [intros [] | constructor] | split].
  - intros x [<- | []]. split.
    + intros (l1 & G & I). cbn in G, I. rewrite Hl in G. injection G as <-.
      assert (X : existsb (Z.eqb i) l = true) by (apply existsb_exists; exists i; split; [exact I | apply Z.eqb_refl]). congruence.
    + exists (l ++ [i]). cbn. rewrite dget_dset_same by apply bytes_eqb_eq. split; [reflexivity |].
      apply in_or_app. right. now left.
  - eapply bgrow_set; [left; eassumption | apply incl_appl, incl_refl].
Qed.

(** what a successful check of a stateful signature has seen *)
Lemma stfl_check_ok m a b s s' : stfl_check w m a b false s = (s', ROk tt) ->
  exists c sig i l, hd_error (m_extra m) = Some c /\ m_prot m = Some sig /\ w_sig_index w c sig = Ok i /\
    stfl_state w s c = Some l /\ existsb (Z.eqb i) l = false /\
    s' = (if b then fst (stfl_use w c i s) else s).
Proof.
  unfold stfl_check. destruct (m_extra m) as [| c cs]; [intros E; minv |].
  destruct (body_eqb (m_body m) B_ccr && negb a); [intros E; minv |].
  destruct (negb (w_is_stfl w c)); [intros E; minv |]. intros E.
  apply bindM_ok in E. destruct E as (s0 & s0' & E0 & E). apply get_ok in E0. destruct E0 as [-> ->].
  destruct (stfl_state w s c) as [l |] eqn:El; [| minv].
  apply bindM_ok in E. destruct E as (sig & s1 & E1 & E). apply octets_ok in E1. destruct E1 as [-> Hs].
  apply bindM_ok in E. destruct E as (i & s1 & E1 & E). apply lift_ok in E1. destruct E1 as [-> Hi].
  destruct (existsb (Z.eqb i) l) eqn:Hx; [minv |].
  exists c, sig, i, l. repeat (split; [assumption || reflexivity |]).
  destruct b; [rewrite E; reflexivity | apply ret_ok in E; apply E].
Qed.

Lemma validate_fresh m s s' : c_val_burn (w_cfg w) = true -> m_alg m <> None ->
  stfl_validate w m s = (s', ROk tt) -> bfresh s s' (own_sig w m).
Proof.
  intros Hburn Ha E. unfold stfl_validate in E. destruct (m_alg m) as [oid |] eqn:Hal; [| contradiction].
  apply bindM_ok in E. destruct E as (t & s1 & E1 & E). apply lift_ok in E1. destruct E1 as [-> Ht].
  destruct (ptype_eqb t PT_STFL) eqn:Et.
  - apply ptype_eqb_eq in Et. subst t. apply stfl_check_ok in E.
    destruct E as (c & sig & i & l & Hc & Hs & Hi & Hl & Hn & ->). rewrite Hburn.
    eapply use_fresh; eauto. now apply has_prot_type_ok.
  - apply ret_ok in E. destruct E as [-> _]. rewrite (own_sig_other m t Ht).
    + apply bfresh_nil, bgrow_refl.
    + intros ->. discriminate.
Qed.

Lemma sig_errors_ok {A} (p : M A) s s' a : sig_errors p s = (s', ROk a) -> p s = (s', ROk a).
Proof.
  unfold sig_errors. intros E. apply catch_ok in E. destruct E as [E | (s1 & e & x & q & E1 & Eq & E2)]; [exact E |].
  exfalso. destruct e; try discriminate; injection Eq as <-; minv.
Qed.

Lemma signature_fresh v m s s' t : prot_type w m = Ok t ->
  validate_signature w v m false s = (s', ROk tt) -> bfresh s s' (own_sig w m).
Proof.
  intros Ht E. unfold validate_signature in E. destruct (m_extra m) as [| c cs] eqn:Ec; [minv |].
  apply bindM_ok in E. destruct E as ([] & s1 & E1 & E).
  assert (s1 = s). { eapply pure_state; [| exact E1]. purify. } subst s1.
  apply bindM_ok in E. destruct E as ([] & s1 & E2 & E). apply lift_ok in E. destruct E as [-> _].
  apply sig_errors_ok in E2.
  apply bindM_ok in E2. destruct E2 as (t' & s2 & E3 & E2). apply lift_ok in E3. destruct E3 as [-> Ht']. rewrite Ht in Ht'. injection Ht' as <-.
  apply bindM_ok in E2. destruct E2 as ([] & s2 & E3 & E2).
  apply bindM_ok in E2. destruct E2 as ([] & s3 & E4 & E2). apply lift_ok in E4. destruct E4 as [-> _].
  destruct (ptype_eqb t PT_STFL) eqn:Et.
  - apply ptype_eqb_eq in Et. subst t. apply has_prot_type_ok in Ht.
    apply stfl_check_ok in E3. destruct E3 as (c' & sig & i & l & Hc & Hs & Hi & Hl & Hn & ->).
    rewrite Ec in Hc. injection Hc as ->.
    destruct (c_prot_burn (w_cfg w)); cbn [negb andb] in E2.
    + apply ret_ok in E2. destruct E2 as [-> _]. eapply use_fresh; eauto. now rewrite Ec.
    + rewrite Hs in E2. apply bindM_ok in E2. destruct E2 as (sg & s3 & E4 & E2). apply octets_ok in E4. destruct E4 as [-> E4]. injection E4 as <-.
      apply bindM_ok in E2. destruct E2 as (s4 & s4' & E4 & E2). apply get_ok in E4. destruct E4 as [-> ->].
      rewrite Hl in E2. rewrite Hi in E2.
      apply bindM_ok in E2. destruct E2 as (i' & s3 & E4 & E2). apply lift_ok in E4. destruct E4 as [-> E4]. injection E4 as <-.
      replace s1 with (fst (stfl_use w c' i s)) by (rewrite E2; reflexivity). eapply use_fresh; eauto. now rewrite Ec.
  - rewrite Bool.andb_false_r in E2. apply ret_ok in E2. destruct E2 as [-> _]. apply ret_ok in E3. destruct E3 as [-> _].
    rewrite (own_sig_other m t Ht); [apply bfresh_nil, bgrow_refl | intros ->; discriminate].
Qed.

Lemma protection_fresh v m s s' : validate_protection w v m false s = (s', ROk tt) -> bfresh s s' (own_sig w m).
Proof.
  intros E. assert (G : bgrow s s').
  { apply (bgrow_steps v m). pose proof (pr_validate_protection w v m false s) as P. rewrite E in P. exact P. }
  unfold validate_protection in E. destruct (m_alg m) as [oid |] eqn:Ha; [| minv].
  apply bindM_ok in E. destruct E as (t & s1 & E1 & E). apply lift_ok in E1. destruct E1 as [-> Ht].
  apply bindM_ok in E. destruct E as ([] & s1 & E1 & E). apply lift_ok in E1. destruct E1 as [-> _].
  destruct t; try (rewrite (own_sig_other m _ Ht) by discriminate; now apply bfresh_nil);
    eapply signature_fresh; eauto.
Qed.

Lemma verify_fresh v m s s' : c_val_burn (w_cfg w) = true ->
  verify_protection w v m s = (s', ROk tt) -> bfresh s s' (own_sig w m).
Proof.
  intros Hburn E. assert (G : bgrow s s').
  { apply (bgrow_steps v m). pose proof (pr_verify_protection w v m s) as P. rewrite E in P. exact P. }
  unfold verify_protection in E. destruct (m_alg m) as [oid |] eqn:Ha.
  2: { rewrite own_sig_unprotected by exact Ha. now apply bfresh_nil. }
  apply bindM_ok in E. destruct E as ([] & s1 & E1 & E). destruct (v_alg_ok v oid); [| minv].
  apply ret_ok in E1. destruct E1 as [-> _].
  apply bindM_ok in E. destruct E as (p & s1 & E1 & E). apply lift_ok in E1. destruct E1 as [-> E1].
  unfold protection_present in E1. rewrite Ha in E1. destruct (m_prot m); [| discriminate]. injection E1 as <-.
  apply bindM_ok in E. destruct E as ([] & s1 & E1 & E).
  apply validate_fresh in E1; [| exact Hburn | congruence].
  eapply bfresh_after; [exact E1 |].
  apply bindM_ok in E. destruct E as (t & s2 & E2 & E). apply lift_ok in E2. destruct E2 as [-> _].
  destruct (ptype_eqb t PT_KEM).
  - assert (s' = s1) by (eapply pure_state; [apply pure_kem_verify | exact E]). subst. apply bgrow_refl.
  - apply (bgrow_steps v m). pose proof (pr_validate_protection w v m true s1) as P. rewrite E in P. exact P.
Qed.

Lemma pcr_bgrow v q b s s' x : process_cert_request w v q b s = (s', x) -> bgrow s s'.
Proof. intros E. apply (bgrow_steps v q). pose proof (pr_process_cert_request w v q b s) as P. rewrite E in P. exact P. Qed.
Lemma conf_bgrow v q s s' x : m_body q = B_certConf -> process_cert_conf w v q s = (s', x) -> bgrow s s'.
Proof. intros Hb E. apply (bgrow_steps v q). pose proof (pr_process_cert_conf w v q s Hb) as P. rewrite E in P. exact P. Qed.

Lemma added_fresh v m s s' r : process_added w v m s = (s', ROk r) ->
  exists i, m_inner m = [i] /\ bfresh s s' (own_sig w i).
Proof.
  unfold process_added. intros E.
  apply bindM_ok in E. destruct E as (i & s1 & E1 & E). apply lift_ok in E1. destruct E1 as [-> Hi].
  exists i. split; [now apply added_ids_inner |].
  apply bindM_ok in E. destruct E as (p & s1 & E1 & E). apply lift_ok in E1. destruct E1 as [-> _].
  apply bindM_ok in E. destruct E as ([] & s1 & E1 & E).
  apply bindM_ok in E. destruct E as (r1 & s2 & E2 & E).
  apply protect_ok in E. destruct E as (-> & -> & _).
  eapply bfresh_after with (s1 := s1).
  - unfold verify_added_protection in E1.
    apply bindM_ok in E1. destruct E1 as ([] & s3 & E3 & E1). apply lift_ok in E3. destruct E3 as [-> _].
    apply bindM_ok in E1. destruct E1 as ([] & s3 & E3 & E1). apply lift_ok in E1. destruct E1 as [-> _].
    destruct (body_in (m_body i) [B_rr; B_kur; B_ccr]); [now apply protection_fresh in E3 |].
    destruct (m_alg i) eqn:Ha; [now apply protection_fresh in E3 |].
    rewrite own_sig_unprotected by exact Ha. apply ret_ok in E3. destruct E3 as [-> _]. apply bfresh_nil, bgrow_refl.
  - destruct (is_cert_req (m_body i)); [eapply pcr_bgrow; eauto |].
    destruct (body_eqb (m_body i) B_certConf) eqn:Eb; [| minv]. apply body_eqb_eq in Eb. eapply conf_bgrow; eauto.
Qed.

Lemma entry_fresh v e s s' r : batch_entry w v e s = (s', ROk r) -> bfresh s s' (batched_sigs w e).
Proof.
  unfold batch_entry, batched_sigs. intros E. destruct (body_eqb (m_body e) B_nested) eqn:En.
  - apply body_eqb_eq in En. rewrite En. destruct (negb _); [minv |]. apply added_fresh in E.
    destruct E as (i & -> & F). cbn. now rewrite app_nil_r.
  - destruct (body_eqb (m_body e) B_certConf) eqn:Ec.
    + apply body_eqb_eq in Ec. rewrite Ec. apply bindM_ok in E. destruct E as (r1 & s1 & E1 & E).
      apply protect_ok in E. destruct E as (-> & -> & _). apply bfresh_nil. eapply conf_bgrow; eauto.
    + assert (X : match m_body e with B_nested => flat_map (own_sig w) (m_inner e) | B_certConf => [] | _ => own_sig w e end = own_sig w e).
      { destruct (m_body e); try reflexivity; discriminate. }
      rewrite X. clear X.
      apply bindM_ok in E. destruct E as (p & s1 & E1 & E). apply lift_ok in E1. destruct E1 as [-> _].
      apply bindM_ok in E. destruct E as ([] & s1 & E1 & E).
      destruct (is_cert_req (m_body e)); [| minv].
      apply bindM_ok in E. destruct E as (r1 & s2 & E2 & E).
      apply protect_ok in E. destruct E as (-> & -> & _).
      eapply bfresh_after; [| eapply pcr_bgrow; eauto].
      unfold verify_inner_batch in E1.
      apply bindM_ok in E1. destruct E1 as ([] & s3 & E3 & E1). apply lift_ok in E3. destruct E3 as [-> _].
      destruct (m_alg e) eqn:Ha.
      * apply catch_ok in E1. destruct E1 as [E1 | (s3 & e0 & x & q & E1 & Eq & E3)]; [now apply protection_fresh in E1 |].
        exfalso. destruct e0; cbn in Eq; try discriminate; injection Eq as <-; minv.
      * rewrite own_sig_unprotected by exact Ha. apply ret_ok in E1. destruct E1 as [-> _]. apply bfresh_nil, bgrow_refl.
Qed.

Lemma loop_fresh v es : forall s s' rs, batch_loop w v es s = (s', ROk rs) -> bfresh s s' (flat_map (batched_sigs w) es).
Proof.
  induction es as [| e es IH]; intros s s' rs E; cbn [batch_loop] in E.
  - minv. apply bfresh_nil, bgrow_refl.
  - apply bindM_ok in E. destruct E as (r & s1 & E1 & E).
    apply bindM_ok in E. destruct E as (rs' & s2 & E2 & E). apply ret_ok in E. destruct E as [-> _].
    cbn [flat_map]. eapply bfresh_app; [eapply entry_fresh; eauto | eapply IH; eauto].
Qed.

Lemma nested_fresh v m s s' r : process_nested w v m s = (s', ROk r) ->
  bfresh s s' (match m_inner m with [i] => own_sig w i | es => flat_map (batched_sigs w) es end).
Proof.
  unfold process_nested. intros E.
  apply bindM_ok in E. destruct E as ([] & s1 & E1 & E).
  apply bindM_ok in E. destruct E as ([] & s2 & E2 & E). apply lift_ok in E2. destruct E2 as [-> _].
  eapply bfresh_before with (s1 := s1).
  { apply (bgrow_steps v m). pose proof (pr_verify_nested w v m s) as P. rewrite E1 in P. exact P. }
  destruct (m_inner m) as [| i [| j l]] eqn:Ei; [minv | |].
  - apply added_fresh in E. destruct E as (i' & Hi & F). rewrite Ei in Hi. injection Hi as <-. exact F.
  - unfold process_batched in E.
    apply bindM_ok in E. destruct E as ([] & s2 & E2 & E). apply lift_ok in E2. destruct E2 as [-> Hb].
    apply bindM_ok in E. destruct E as (rs & s2 & E2 & E).
    apply bindM_ok in E. destruct E as (tx & s3 & E3 & E). apply octets_ok in E3. destruct E3 as [-> Htx].
    apply bindM_ok in E. destruct E as (sn & s3 & E3 & E). apply octets_ok in E3. destruct E3 as [-> Hsn].
    apply protect_ok in E. destruct E as (-> & -> & _). rewrite Ei in E2. eapply loop_fresh; eauto.
Qed.

Lemma step_sigs s m v s' o : c_val_burn (w_cfg w) = true -> step w s (m, v) = (s', o) ->
  bfresh s s' (if accepted o then checked_sigs w m else []).
Proof.
  intros Hburn E. assert (G : bgrow s s').
  { apply (bgrow_tree v m). pose proof (step_tree w s m v) as T. rewrite E in T. exact T. }
  apply step_outcome in E.
  destruct (accepted o) eqn:Ha; [| now apply bfresh_nil].
  assert (X : exists s1 s2 fl, pre w v m s = (s1, ROk tt) /\ dispatch w v m s1 = (s2, ROk fl) /\ bgrow s2 s').
  { destruct E as [e _ Hf _ | s1 e x _ _ Hf _ | s1 r Ep Ed -> | s1 s2 r Ep Ed -> _]; try congruence.
    - exists s1, s', (Done r). repeat split; auto. apply bgrow_refl.
    - exists s1, s2, (Fall r). repeat split; auto.
      destruct (kem_update_only w m s2) as (k & ->). intros x B. exact B. }
  clear E. destruct X as (s1 & s2 & fl & Ep & Ed & G2). eapply bfresh_after; [| exact G2]. clear G G2.
  apply pre_pre_ok in Ep. destruct Ep as (_ & Hv & _).
  assert (Gd : bgrow s1 s2).
  { apply (bgrow_tree v m). pose proof (pr_dispatch w v m s1) as T. rewrite Ed in T. exact T. }
  unfold checked_sigs. apply dispatch_ok in Ed.
  assert (Own : body_in (m_body m) [B_rr; B_genm] = false -> bfresh s s2 (own_sig w m)).
  { intros Eb. rewrite Eb in Hv. apply verify_fresh in Hv; [| exact Hburn]. eapply bfresh_after; eauto. }
  destruct Ed as [r0 [Hb | Hb] Hc E0 | r0 Hb E0 | r0 Hb E0 | s3 s4 r0 Hb E1 E2 E3 | r0 Hb E0 _ | e r0 Hb He _ _ E0 | r0 Hb E0 | r0 Hb E0 _];
    try (rewrite Hb in *; cbn [body_in existsb body_eqb orb] in *).
  - apply Own. reflexivity.
  - apply Own. reflexivity.
  - apply Own. reflexivity.
  - apply verify_fresh in Hv; [| exact Hburn]. apply nested_fresh in E0. eapply bfresh_app; eauto.
  - assert (Eb : body_in (m_body m) [B_rr; B_genm] = false) by (destruct (m_body m); try discriminate; reflexivity).
    specialize (Own Eb). destruct (m_body m); try discriminate; exact Own.
  - subst s1. now apply bfresh_nil.
  - subst s1. now apply bfresh_nil.
  - apply Own. reflexivity.
  - subst s1. unfold process_genm in E0. destruct (m_alg m) eqn:Ha0.
    2: { rewrite own_sig_unprotected by exact Ha0. now apply bfresh_nil. }
    assert (V : exists s3, validate_protection w v m false s = (s3, ROk tt) /\ bgrow s3 s2).
    { destruct (m_genm m); [minv | |]; apply bindM_ok in E0; destruct E0 as ([] & s3 & E1 & E0); exists s3;
        (split; [exact E1 |]); [minv |].
      apply bindM_ok in E0. destruct E0 as ([] & s4 & E2 & E0). apply lift_ok in E2. destruct E2 as [-> _].
      assert (s2 = s3) by (eapply pure_state; [apply pure_reply_to | exact E0]). subst. apply bgrow_refl. }
    destruct V as (s3 & V & G3). apply protection_fresh in V. eapply bfresh_after; eauto.
Qed.

Lemma log_sigs h : c_val_burn (w_cfg w) = true -> forall s,
  bfresh s (run w s h) (accepted_sigs w (log w s h)).
Proof.
  intros Hburn. induction h as [| [m v] h IH]; intros s; cbn [log run fold_left accepted_sigs flat_map]; [apply bfresh_nil, bgrow_refl |].
  specialize (IH (fst (step w s (m, v)))). destruct (step w s (m, v)) as [s' o] eqn:E. cbn [fst snd] in *.
  eapply bfresh_app; [eapply step_sigs; eauto | exact IH].
Qed.
End Auth.
