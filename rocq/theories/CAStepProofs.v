(** What one request does: rejection before any handler runs, confirmation,
    revocation and the echo of header fields (C15, C16, C17, C19, C47). *)
From Verif Require Export CAHistProofs.
From Verif Require Import CADbProofs.
Local Open Scope Z_scope.

(** [raises P p]: exceptions of [p] carry a message satisfying [P]. *)
Definition raises (P : msg -> Prop) {A} (p : M A) : Prop :=
  forall s s' e x, p s = (s', RErr e x) -> P x.

Section Raises.
Variable P : msg -> Prop.
Lemma raises_ret {A} (a : A) : raises P (ret a). Proof. intros s s' e x E. discriminate. Qed.
Lemma raises_get : raises P get. Proof. intros s s' e x E. discriminate. Qed.
Lemma raises_modify f : raises P (modify f). Proof. intros s s' e x E. discriminate. Qed.
Lemma raises_raise {A} m e : P m -> raises P (@raise A m e).
Proof. intros Hm s s' e' x E. apply raise_err in E. destruct E as (_ & _ & ->). exact Hm. Qed.
Lemma raises_lift {A} m (r : result A) : P m -> raises P (lift m r).
Proof. intros Hm s s' e x E. apply lift_err in E. destruct E as (_ & -> & _). exact Hm. Qed.
Lemma raises_octets m o : P m -> raises P (octets m o).
Proof. intros Hm s s' e x E. apply octets_err in E. destruct E as (_ & -> & _). exact Hm. Qed.
Lemma raises_lift_db m f : P m -> raises P (lift_db m f).
Proof. intros Hm s s' e x E. apply lift_db_err in E. destruct E as (_ & -> & _). exact Hm. Qed.
Lemma raises_bind {A B} (p : M A) (k : A -> M B) : raises P p -> (forall a, raises P (k a)) -> raises P (bindM p k).
Proof.
  intros Hp Hk s s' e x E. apply bindM_err in E. destruct E as [E | (a & s1 & _ & E)]; [eapply Hp | eapply Hk]; eauto.
Qed.
Lemma raises_catch {A} (p : M A) h : raises P p -> (forall e m q, P m -> h e m = Some q -> raises P q) -> raises P (catch p h).
Proof.
  intros Hp Hh s s' e x E. apply catch_err in E.
  destruct E as (s1 & e1 & m1 & E & [(_ & _ & _ & <-) | (q & Eq & E2)]); [eapply Hp; eauto |].
  eapply (Hh e1 m1 q); eauto.
Qed.
End Raises.

Ltac rs_step :=
  match goal with
  | |- raises _ (ret _) => apply raises_ret
  | |- raises _ get => apply raises_get
  | |- raises _ (modify _) => apply raises_modify
  | |- raises _ (raise _ _) => apply raises_raise; auto
  | |- raises _ (lift _ _) => apply raises_lift; auto
  | |- raises _ (octets _ _) => apply raises_octets; auto
  | |- raises _ (lift_db _ _) => apply raises_lift_db; auto
  | |- raises _ (bindM _ _) => apply raises_bind; [| intros ?]
  | |- raises _ (if ?x then _ else _) => destruct x eqn:?
  | |- raises _ (match ?x with _ => _ end) => destruct x
  | |- raises _ (let _ := _ in _) => cbv zeta
  end.
Ltac rs := repeat rs_step.

Section RaiseFacts.
Variable w : world.
Variable P : msg -> Prop.
Lemma rs_reply_to v m b ok e c : P m -> raises P (reply_to v m b ok e c).
Proof. intros. unfold reply_to, ca_header. rs. Qed.
Lemma rs_protect v m r : P m -> raises P (protect v m r).
Proof. intros. unfold protect. rs. Qed.
Lemma rs_kem_verify v m : P m -> raises P (kem_verify v m).
Proof. intros. unfold kem_verify. rs. Qed.
Lemma rs_stfl_use c i : raises P (stfl_use w c i).
Proof. apply raises_modify. Qed.
Lemma rs_stfl_check m a b x : P m -> raises P (stfl_check w m a b x).
Proof. intros. unfold stfl_check. rs. apply rs_stfl_use. Qed.
Lemma rs_stfl_validate m : P m -> raises P (stfl_validate w m).
Proof. intros. unfold stfl_validate. rs. now apply rs_stfl_check. Qed.
Lemma rs_stfl_add_msg m : P m -> raises P (stfl_add_msg w m).
Proof. intros. unfold stfl_add_msg. rs. apply rs_stfl_use. Qed.
Lemma rs_stfl_after m certs : P m -> forall i, raises P (stfl_after w m certs i).
Proof. intros Hm. induction certs as [| c certs IH]; intros i; cbn [stfl_after]; rs; auto. unfold stfl_add. rs. Qed.
Lemma rs_validate_signature v m x : P m -> raises P (validate_signature w v m x).
Proof.
  intros Hm. unfold validate_signature. destruct (m_extra m); [now apply raises_raise |]. rs.
  unfold sig_errors. apply raises_catch.
  - rs; try apply rs_stfl_check; try apply rs_stfl_use; auto.
  - intros e y q Hy Eq. destruct e; inversion Eq; now apply raises_raise.
Qed.
Lemma rs_validate_protection v m x : P m -> raises P (validate_protection w v m x).
Proof. intros. unfold validate_protection. rs; try (now apply rs_validate_signature). now apply rs_kem_verify. Qed.
Lemma rs_verify_protection v m : P m -> raises P (verify_protection w v m).
Proof.
  intros. unfold verify_protection. rs; try (now apply rs_stfl_validate); try (now apply rs_kem_verify);
    now apply rs_validate_protection.
Qed.
Lemma rs_verify_added v m b : P m -> raises P (verify_added_protection w v m b).
Proof. intros. unfold verify_added_protection. rs; now apply rs_validate_protection. Qed.
Lemma rs_verify_inner v m b : P m -> raises P (verify_inner_batch w v m b).
Proof.
  intros. unfold verify_inner_batch. rs. apply raises_catch; [now apply rs_validate_protection |].
  intros e y q Hy Eq. destruct e; cbn in Eq; inversion Eq; now apply raises_raise.
Qed.
Lemma rs_verify_nested v m : P m -> raises P (verify_nested w v m).
Proof. intros. unfold verify_nested. rs; now apply rs_validate_signature. Qed.
Lemma rs_compromised v m : P m -> raises P (compromised_check w v m).
Proof. intros. unfold compromised_check. rs. Qed.
Lemma rs_not_confirmed m : P m -> raises P (not_confirmed_check w m).
Proof. intros. unfold not_confirmed_check. rs. Qed.
Lemma rs_add_certs v m certs b : P m -> raises P (add_certs w v m certs b).
Proof. intros Hm. induction certs as [| c certs IH]; cbn [add_certs]; rs; auto. Qed.
Lemma rs_process_after v m r enc : P m -> raises P (process_after w v m r enc).
Proof.
  intros Hm. unfold process_after. rs; try (now apply rs_add_certs); try (now apply rs_stfl_after).
  - unfold store_tx. rs.
  - unfold add_may_update. rs.
  - unfold conf_add_confirmed. rs.
  - unfold conf_add. rs.
Qed.
Lemma rs_process_cert_request v m must : P m -> raises P (process_cert_request w v m must).
Proof.
  intros Hm. unfold process_cert_request. rs. apply raises_catch.
  - rs. unfold process_by_body. rs; try (unfold kur_checks; rs; fail); try (unfold issue; rs; now apply rs_reply_to);
      now apply rs_process_after.
  - intros e y q Hy Eq. destruct e; cbn in Eq; inversion Eq; now apply rs_reply_to.
Qed.
Lemma rs_confirm_certs v m req certs : P m -> P req -> raises P (confirm_certs w v m req certs).
Proof.
  intros Hm Hr. induction certs as [| c certs IH]; cbn [confirm_certs]; rs; auto. now apply (rs_stfl_after req [c]).
Qed.
Lemma rs_rp_catch v m p : P m -> raises P p -> raises P (rp_catch v m p).
Proof.
  intros Hm Hp. unfold rp_catch. apply raises_catch; [exact Hp |].
  intros e y q Hy Eq. destruct e; cbn in Eq; inversion Eq; now apply rs_reply_to.
Qed.
Lemma rs_process_rr v m : P m -> raises P (process_rr w v m).
Proof.
  intros Hm. unfold process_rr. rs. all: apply rs_rp_catch; [exact Hm |]. all: rs; try (now apply rs_reply_to).
  all: try (unfold revive; rs; fail). all: try (unfold mark_revoked; rs; fail).
  all: unfold self_revive; apply rs_rp_catch; [exact Hm |]; rs; try (now apply rs_reply_to); unfold revive; rs.
Qed.
Lemma rs_process_challenge v m : P m -> raises P (process_challenge v m).
Proof. intros. unfold process_challenge. rs. now apply rs_reply_to. Qed.
Lemma rs_process_popdecr v m : P m -> raises P (process_popdecr w v m).
Proof.
  intros Hm. unfold process_popdecr. apply raises_bind; [now apply raises_octets |]. intros tx.
  apply raises_bind.
  - generalize (@None body) ([] : list cert). induction (m_popdecr m) as [| n ns IH]; intros b acc; cbn [popdecr_loop]; rs; auto.
  - intros x. rs; try (now apply rs_reply_to); now apply rs_add_certs.
Qed.
Lemma rs_process_genm v m : P m -> raises P (process_genm w v m).
Proof.
  intros Hm. unfold process_genm. rs; try (now apply rs_validate_protection); try (now apply rs_reply_to).
  now apply rs_not_confirmed.
Qed.
Lemma rs_process_added v m : P m -> (forall i, added_ids m = Ok i -> P i) ->
  (forall i, added_ids m = Ok i -> m_body i = B_certConf -> raises P (process_cert_conf w v i)) ->
  raises P (process_added w v m).
Proof.
  intros Hm Hi Hc s s' e x E. unfold process_added in E. apply bindM_err in E.
  destruct E as [E | (i & s1 & E1 & E)]; [apply lift_err in E; destruct E as (_ & -> & _); exact Hm |].
  apply lift_ok in E1. destruct E1 as [-> Ei]. specialize (Hi _ Ei). specialize (Hc _ Ei).
  revert E. match goal with |- ?p s = _ -> _ => assert (R : raises P p) end; [| apply R].
  rs; try (now apply rs_verify_added); try (now apply rs_process_cert_request); try (now apply rs_protect).
  apply Hc. now apply body_eqb_eq.
Qed.
End RaiseFacts.

Section Step.
Variable w : world.
Local Notation H := (w_H w).

(** *** The checks before the dispatcher *)
Definition pre (v : env) (m : msg) : M unit :=
  s <- get ;;
  (match m_extra m with [] => ret tt | c :: _ => lift m (not_allowed w v m c s) end) ;;;
  (if body_in (m_body m) [B_rr; B_genm] then ret tt else verify_protection w v m) ;;;
  (if body_in (m_body m) [B_ir; B_cr; B_p10cr; B_kur; B_rr] then compromised_check w v m else ret tt) ;;;
  (if body_in (m_body m) [B_certConf; B_error] then ret tt else not_confirmed_check w m).

Lemma handle_pre v m s :
  handle w v m s = match pre v m s with (s1, ROk _) => dispatch w v m s1 | (s1, RErr e x) => (s1, RErr e x) end.
Proof.
  unfold handle, pre, bindM, get.
  destruct ((match m_extra m with [] => ret tt | c :: _ => lift m (not_allowed w v m c s) end) s) as [s1 [? | ? ?]]; [| reflexivity].
  destruct ((if body_in (m_body m) [B_rr; B_genm] then ret tt else verify_protection w v m) s1) as [s2 [? | ? ?]]; [| reflexivity].
  destruct ((if body_in (m_body m) [B_ir; B_cr; B_p10cr; B_kur; B_rr] then compromised_check w v m else ret tt) s2) as [s3 [? | ? ?]]; [| reflexivity].
  destruct ((if body_in (m_body m) [B_certConf; B_error] then ret tt else not_confirmed_check w m) s3) as [s4 [? | ? ?]]; reflexivity.
Qed.

Lemma pre_stfl v m s : only_stfl s (fst (pre v m s)).
Proof.
  unfold pre. apply (pr_bind_get (R := only_stfl)).
  apply pr_bind; [apply only_stfl_trans | destruct (m_extra m); [apply only_stfl_refl | destruct (not_allowed w v m c s); apply only_stfl_refl] |].
  intros s1 _ _. apply pr_bind; [apply only_stfl_trans | |].
  - destruct (body_in _ _); [apply only_stfl_refl | apply os_verify_protection].
  - intros s2 _ _. apply pr_bind; [apply only_stfl_trans | |].
    + destruct (body_in _ _); [| apply only_stfl_refl]. rewrite pure_compromised. apply only_stfl_refl.
    + intros s3 _ _. destruct (body_in _ _); [apply only_stfl_refl |]. rewrite pure_not_confirmed. apply only_stfl_refl.
Qed.

Lemma pre_raises v m : raises (eq m) (pre v m).
Proof.
  unfold pre. rs.
  - now apply rs_verify_protection.
  - now apply rs_compromised.
  - now apply rs_not_confirmed.
Qed.

Lemma pre_pre_ok v m s s1 x : pre v m s = (s1, ROk x) -> pre_ok w v m s s1.
Proof.
  intros E.
  assert (E' : handle w v m s = dispatch w v m s1) by (rewrite handle_pre, E; reflexivity). clear E'.
  unfold pre in E. unfold pre_ok.
  apply bindM_ok in E. destruct E as (s0 & s0' & E0 & E). apply get_ok in E0. destruct E0 as [-> ->].
  apply bindM_ok in E. destruct E as ([] & s2 & E1 & E).
  apply bindM_ok in E. destruct E as ([] & s3 & E2 & E).
  apply bindM_ok in E. destruct E as ([] & s4 & E3 & E).
  assert (s2 = s). { eapply pure_state; [| exact E1]. purify. } subst s2.
  assert (s4 = s3). { eapply pure_state; [| exact E3]. purify. apply pure_compromised. } subst s4.
  assert (s1 = s3). { eapply pure_state; [| exact E]. purify. apply pure_not_confirmed. } subst s3.
  split; [| split].
  - destruct (m_extra m); [exact I | minv; assumption].
  - destruct (body_in (m_body m) [B_rr; B_genm]); [minv; reflexivity | exact E2].
  - destruct (body_in (m_body m) [B_certConf; B_error]); [exact I | destruct x; exact E].
Qed.

(** Everything that can happen to a request. *)
Inductive outcome_of (v : env) (m : msg) (s s' : ca) (o : outcome) : Prop :=
| Out_pre e :
    pre v m s = (s', RErr e m) -> accepted o = false ->
    (forall r, o = Reply r -> is_error_reply v m e m r) -> outcome_of v m s s' o
| Out_err s1 e x :
    pre v m s = (s1, ROk tt) -> dispatch w v m s1 = (s', RErr e x) -> accepted o = false ->
    (forall r, o = Reply r -> is_error_reply v m e x r) -> outcome_of v m s s' o
| Out_done s1 r :
    pre v m s = (s1, ROk tt) -> dispatch w v m s1 = (s', ROk (Done r)) -> o = Reply r -> outcome_of v m s s' o
| Out_fall s1 s2 r :
    pre v m s = (s1, ROk tt) -> dispatch w v m s1 = (s2, ROk (Fall r)) ->
    s' = fst (kem_update w m s2) -> (o = Reply r \/ o = Http500) -> outcome_of v m s s' o.

Lemma step_outcome s m v s' o : step w s (m, v) = (s', o) -> outcome_of v m s s' o.
Proof.
  intros E.
  destruct (pre v m s) as [s1 [[] | e x]] eqn:Ep.
  - assert (Eh : handle w v m s = dispatch w v m s1) by now rewrite handle_pre, Ep.
    destruct (dispatch w v m s1) as [s2 [[r | r] | e x]] eqn:Ed.
    + unfold step, process_request in E. cbn [fst snd] in E. rewrite Eh in E. inversion E; subst.
      eapply Out_done; eauto.
    + unfold step, process_request in E. cbn [fst snd] in E. rewrite Eh in E.
      unfold bindM in E. destruct (kem_update w m s2) as [s3 [[] | e x]] eqn:Ek.
      * pose proof (pure_protect v m r s3) as Hp. destruct (protect v m r s3) as [s4 [r' | e x]] eqn:Er; cbn in Hp; subst s4; inversion E; subst s' o.
        -- apply protect_ok in Er. destruct Er as (_ & -> & _). eapply Out_fall; eauto. now rewrite Ek.
        -- eapply Out_fall; eauto. now rewrite Ek.
      * inversion E; subst. eapply Out_fall; eauto. now rewrite Ek.
    + destruct o as [r |].
      * apply step_reply in E. apply process_request_ok in E.
        destruct E as [E | [(s3 & E & _) | (e' & x' & E & Hr)]]; rewrite Eh in E; inversion E; subst.
        eapply Out_err; eauto; [apply Hr |]. intros r0 Er0. inversion Er0; subst. exact Hr.
      * assert (s' = s2).
        { unfold step, process_request in E. cbn [fst snd] in E. rewrite Eh in E.
          match type of E with context [?p s2] => assert (Hp : pure p) end.
          { purify; try apply pure_body_relevant; apply pure_protect. }
          match type of E with context [?p s2] => pose proof (Hp s2) as Hq; destruct (p s2) as [? [? | ? ?]] end;
            cbn in Hq; subst; inversion E; reflexivity. }
        subst. eapply Out_err; eauto. intros r0 Er0. discriminate.
  - assert (Eh : handle w v m s = (s1, RErr e x)) by now rewrite handle_pre, Ep.
    pose proof (pre_raises v m _ _ _ _ Ep) as Hx. subst x.
    destruct o as [r |].
    + apply step_reply in E. apply process_request_ok in E.
      destruct E as [E | [(s3 & E & _) | (e' & x' & E & Hr)]]; rewrite Eh in E; inversion E; subst.
      eapply Out_pre; eauto; [apply Hr |]. intros r0 Er0. inversion Er0; subst. exact Hr.
    + assert (s' = s1).
      { unfold step, process_request in E. cbn [fst snd] in E. rewrite Eh in E.
        match type of E with context [?p s1] => assert (Hp : pure p) end.
        { purify; try apply pure_body_relevant; apply pure_protect. }
        match type of E with context [?p s1] => pose proof (Hp s1) as Hq; destruct (p s1) as [? [? | ? ?]] end;
          cbn in Hq; subst; inversion E; reflexivity. }
      subst. eapply Out_pre; eauto. intros r0 Er0. discriminate.
Qed.

Lemma kem_update_only m s : exists k, fst (kem_update w m s) = set_kem s k.
Proof.
  assert (A : exists k, s = set_kem s k) by (exists (s_kem s); destruct s; reflexivity).
  unfold kem_update. destruct (m_alg m); [| exact A]. destruct (has_prot_type w m PT_KEM); [| exact A].
  unfold bindM, get. destruct (s_kem s) eqn:Ek; destruct (m_tx m); cbn; try exact A. eexists. reflexivity.
Qed.

(** *** C16: signers that are revoked or updated *)
Lemma not_allowed_bad v m c s :
  m_body m <> B_rr ->
  (get_cert_state H (s_db s) c = REVOKED \/ get_cert_state H (s_db s) c = UPDATED) ->
  not_allowed w v m c s = Err ECertRevoked.
Proof.
  intros Hb Hs. unfold not_allowed. destruct (body_eqb (m_body m) B_rr) eqn:Eb; [apply body_eqb_eq in Eb; contradiction |].
  cbn [negb]. destruct Hs as [Hs | Hs].
  - unfold is_revoked. rewrite Hs. reflexivity.
  - unfold is_revoked. rewrite Hs. cbn [state_eqb]. unfold validate_is_updated.
    assert (G : exists e, get_by_digest (update_entries (s_db s)) (H c) = Some e /\ e_state e = UPDATED).
    { unfold get_cert_state, get_cert in Hs. destruct (get_by_digest (db_certs (s_db s)) (H c)) as [e |] eqn:G; [| discriminate].
      exists e. split; [| exact Hs]. apply get_by_digest_some in G. destruct G as (a & b & Hl & Hd & Hn).
      unfold update_entries. rewrite Hl, filter_app. cbn [filter]. rewrite Hs. cbn [state_eqb orb].
      rewrite get_by_digest_app.
      assert (Hf : get_by_digest (filter (fun e0 => state_eqb (e_state e0) UPDATED || state_eqb (e_state e0) UPDATED_BUT_NOT_CONFIRMED) a) (H c) = None).
      { apply get_by_digest_none. intros x Hx. apply filter_In in Hx. eapply get_by_digest_none; [exact Hn | apply Hx]. }
      rewrite Hf. unfold get_by_digest. cbn [find]. rewrite Hd, bytes_eqb_refl. reflexivity. }
    destruct G as (e & -> & Hu). unfold for_kur. rewrite Hu. cbn [state_eqb andb].
    destruct (body_eqb (m_body m) B_kur) eqn:Ek; [| reflexivity]. cbn [negb].
    apply body_eqb_eq in Ek. rewrite Ek. reflexivity.
Qed.

Lemma bad_signer_rejected s m v c :
  m_body m <> B_rr -> hd_error (m_extra m) = Some c ->
  (get_cert_state H (s_db s) c = REVOKED \/ get_cert_state H (s_db s) c = UPDATED) ->
  fst (step w s (m, v)) = s /\ accepted (snd (step w s (m, v))) = false /\
  (forall r, snd (step w s (m, v)) = Reply r -> r_body r = B_error /\ r_fail r = Some ECertRevoked).
Proof.
  intros Hb Hc Hs. destruct (step w s (m, v)) as [s' o] eqn:E. cbn [fst snd].
  apply step_outcome in E.
  assert (Hp : pre v m s = (s, RErr ECertRevoked m)).
  { unfold pre, bindM, get. destruct (m_extra m) as [| c0 l]; [discriminate |]. injection Hc as ->.
    rewrite (not_allowed_bad v m c s Hb Hs). reflexivity. }
  destruct E as [e E Ha Hr | s1 e x E _ _ _ | s1 r E _ _ | s1 s2 r E _ _ _]; rewrite Hp in E; inversion E; subst.
  split; [reflexivity |]. split; [exact Ha |]. intros r Er. destruct (Hr r Er) as (_ & _ & _ & A).
  cbn in A. destruct A as (_ & _ & [B | (B & _)] & F); [auto | discriminate].
Qed.

Lemma valid_signer_allowed v m s c e :
  get_cert H (s_db s) c = Some e ->
  (e_state e = CONFIRMED \/ e_state e = REVIVED \/ e_state e = NOT_CONFIRMED) ->
  (forall x, In x (db_certs (s_db s)) -> e_digest x = H c -> x = e) ->
  not_allowed w v m c s = Ok tt.
Proof.
  intros G Hs Hu. unfold not_allowed, is_revoked, get_cert_state. rewrite G.
  assert (N : get_by_digest (update_entries (s_db s)) (H c) = None).
  { apply get_by_digest_none. intros x Hx Hd. unfold update_entries in Hx. apply filter_In in Hx. destruct Hx as [Hx Hf].
    apply Hu in Hx; [| exact Hd]. subst x. destruct Hs as [Hs | [Hs | Hs]]; rewrite Hs in Hf; discriminate. }
  destruct (negb (body_eqb (m_body m) B_rr)).
  - assert (R : state_eqb (e_state e) REVOKED = false) by (destruct Hs as [-> | [-> | ->]]; reflexivity).
    rewrite R. unfold validate_is_updated. rewrite N. reflexivity.
  - destruct Hs as [-> | [-> | ->]]; reflexivity.
Qed.

(** *** C15: accepted confirmations *)
Lemma only_stfl_fields s s' : only_stfl s s' ->
  s_db s' = s_db s /\ s_confirmed s' = s_confirmed s /\ s_creq s' = s_creq s /\ s_cresp s' = s_cresp s /\
  s_ccerts s' = s_ccerts s /\ s_ids s' = s_ids s /\ s_kem s' = s_kem s /\ s_chal s' = s_chal s /\ s_rv s' = s_rv s
  /\ s_txcerts s' = s_txcerts s /\ s_cross s' = s_cross s.
Proof. intros (t & ->). repeat split. Qed.

Lemma pre_only_stfl v m s s1 x : pre v m s = (s1, x) -> only_stfl s s1.
Proof. intros E. pose proof (pre_stfl v m s) as P. rewrite E in P. exact P. Qed.

Lemma conf_dispatch v m s s' o :
  step w s (m, v) = (s', o) -> m_body m = B_certConf -> accepted o = true ->
  exists s1 s2 r k, only_stfl s s1 /\ o = Reply r /\ conf_accepts w v m s1 s2 r /\ s' = set_kem s2 k.
Proof.
  intros E Hb Ha. apply step_outcome in E.
  destruct E as [e E Ha' _ | s1 e x E _ Ha' _ | s1 r E Ed -> | s1 s2 r E Ed -> [-> | ->]];
    try (rewrite Ha' in Ha; discriminate); try discriminate.
  - apply dispatch_ok in Ed. inversion Ed; subst;
      repeat match goal with X : _ \/ _ |- _ => destruct X end; congruence.
  - apply dispatch_ok in Ed.
    inversion Ed as [| ? Hx | | ? ? ? Hx | ? Hx | ? ? Hx | r0 Hx Ec | ]; subst; rewrite Hb in Hx; try discriminate.
    apply cert_conf_ok in Ec. destruct (kem_update_only m s2) as (k & Hk).
    exists s1, s2, r, k. split; [eapply pre_only_stfl; eauto |]. auto.
Qed.

Lemma pki_conf_one m c cs : pki_conf_checks w m (c :: cs) = Ok tt ->
  cs = [] /\ exists k h, m_conf m = [k] /\ k_id k = 0 /\ k_hash k = Some h /\
    (k_status k = CS_rejection \/ w_conf_digest w (k_alg k) (m_pvno m) c = Ok h).
Proof.
  unfold pki_conf_checks. intros E.
  destruct (length (m_conf m) =? 1)%nat eqn:E1; [| discriminate]. cbn [negb] in E.
  destruct (length (m_conf m) =? length (c :: cs))%nat eqn:E2; [| discriminate]. cbn [negb] in E.
  apply Nat.eqb_eq in E1, E2. destruct (m_conf m) as [| k [| ? ?]]; try discriminate.
  destruct cs; [| discriminate]. split; [reflexivity |].
  cbn [check_entries] in E. apply bind_ok in E. destruct E as ([] & E & _).
  unfold check_entry in E. destruct (k_id k =? 0) eqn:Ei; [| discriminate]. cbn [negb] in E. apply Z.eqb_eq in Ei.
  destruct (k_hash k) as [h |] eqn:Eh; [| discriminate].
  exists k, h. repeat (split; [auto; fail |]).
  apply bind_ok in E. destruct E as (u & _ & E).
  destruct (k_status k) eqn:Ek; auto; right.
  all: apply bind_ok in E; destruct E as (d & Ed & E); destruct (bytes_eqb h d) eqn:Eb; [| discriminate];
       apply bytes_eqb_eq in Eb; subst; exact Ed.
Qed.

Lemma change_other d c st r u now d' c' : change_cert_state H d c st r u now = Ok d' -> H c' <> H c ->
  get_cert_state H d' c' = get_cert_state H d c'.
Proof.
  intros E N. apply change_ok_shape in E. destruct E as (l' & El & -> & _).
  apply change_in_get in El. destruct El as (e & e' & _ & _ & _ & Oth).
  unfold get_cert_state, get_cert. cbn [db_certs with_certs]. rewrite Oth; auto.
Qed.

Lemma change_reaches d c st r u now d' : change_cert_state H d c st r u now = Ok d' -> get_cert_state H d' c = st.
Proof.
  intros E. apply change_ok_shape in E. destruct E as (l' & El & -> & _).
  apply change_in_get in El. destruct El as (e & e' & _ & G' & Ce & _).
  unfold get_cert_state, get_cert. cbn [db_certs with_certs]. rewrite G'. apply change_entry_identity in Ce. apply Ce.
Qed.

Lemma cert_conf_accepted h m v s' r :
  step w (after w h) (m, v) = (s', Reply r) -> m_body m = B_certConf -> r_ok r = true ->
  exists tx c m0 v0 q enc k hash,
    m_tx m = Some tx /\ r_tx r = Some tx /\ r_rnonce r = m_snonce m /\ r_body r = B_pkiconf /\
    In (m0, v0) h /\ contains m0 q /\ is_cert_req (m_body q) = true /\ m_tx q = Some tx /\
    v_issue v0 q = Ok (true, [c], enc) /\
    m_rnonce m = Some (v_nonce v0 q) /\ (c_fresh (w_cfg w) = true -> m_snonce m <> m_snonce q) /\
    m_conf m = [k] /\ k_id k = 0 /\ k_hash k = Some hash /\
    (k_status k = CS_rejection \/ w_conf_digest w (k_alg k) (m_pvno m) c = Ok hash) /\
    get_cert_state H (s_db (after w h)) c = NOT_CONFIRMED /\
    get_cert_state H (s_db s') c = CONFIRMED /\
    ~ In tx (s_confirmed (after w h)) /\ In tx (s_confirmed s') /\
    dget bytes_eqb tx (s_ccerts s') = None /\ dget bytes_eqb tx (s_creq s') = None.
Proof.
  intros E Hb Hok. pose proof (conf_inv_after w h) as Inv.
  apply conf_dispatch in E; [| exact Hb | exact Hok].
  destruct E as (s1 & s2 & r0 & kk & Ho & Er & A & ->). injection Er as <-.
  destruct Ho as (t & ->).
  destruct A as (tx & req & r0 & c & cs & Htx & Hni & Hq & Hr & Hcs & Hn & Hp & Hk & Hrep & S1 & S2 & S3 & S4 & S5 & S6 & S7 & d1 & Hd1 & Hdb & Hnc & Hc).
  apply pki_conf_one in Hk. destruct Hk as (-> & k & hash & Hm & Hid & Hh & Hst).
  cbn [s_confirmed s_creq s_cresp s_ccerts s_db s_ids set_stfl] in *.
  destruct Inv as [I1 I2 (N1 & N2 & N3)].
  pose proof (I2 tx Hni) as Ecs. rewrite Hr, Hcs in Ecs. cbn in Ecs. injection Ecs as Ecs.
  destruct (I1 _ _ Hr) as (m0 & v0 & q & enc & Hi & Hct & Hbq & Htq & Hv & Hsn & Hrn & Hbd).
  rewrite <- Ecs in Hv.
  apply reply_to_ok in Hrep. destruct Hrep as (_ & tt0 & nn & Ht0 & Hn0 & Hrr). rewrite Htx in Ht0. injection Ht0 as <-.
  assert (Hrn2 : m_rnonce m = Some (v_nonce v0 q) /\ (c_fresh (w_cfg w) = true -> m_snonce m <> m_snonce q)).
  { unfold conf_nonces in Hn. destruct (m_snonce m) as [sn |]; [| discriminate]. destruct (m_rnonce m) as [rn |]; [| discriminate].
    destruct (m_snonce req) as [qn |]; [| discriminate].
    destruct (bytes_eqb (r_snonce r0) rn) eqn:Eb; [| discriminate]. apply bytes_eqb_eq in Eb. split; [congruence |].
    intros Hf. rewrite Hf in Hn. cbn [negb] in Hn. rewrite <- Hrn.
    destruct (r_rnonce r0) as [rrn |]; [| discriminate].
    destruct (bytes_eqb qn rrn) eqn:Eb2; [| discriminate]. apply bytes_eqb_eq in Eb2. subst rrn. cbn [negb] in Hn.
    destruct (negb (length sn =? 16)%nat); [discriminate |].
    destruct (bytes_eqb sn qn) eqn:Eb3; [discriminate |]. intros X. injection X as ->. rewrite bytes_eqb_refl in Eb3. discriminate. }
  destruct Hrn2 as [Hrn2 Hfr].
  assert (Hb4 : get_cert_state H (s_db (after w h)) c = NOT_CONFIRMED).
  { destruct (body_eqb (r_body r0) B_kup); [| subst d1; exact Hnc].
    destruct Hd1 as (old & _ & Hch). destruct (bytes_eq_dec (H c) (H old)) as [X | X].
    - pose proof (change_reaches _ _ _ _ _ _ _ Hch) as Y.
      unfold get_cert_state, get_cert in *. rewrite X in Hnc. rewrite Hnc in Y. discriminate.
    - rewrite <- Hnc. symmetry. eapply change_other; eauto. }
  exists tx, c, m0, v0, q, enc, k, hash. subst r. cbn [r_tx r_rnonce r_body].
  cbn [s_db s_confirmed s_ccerts s_creq set_kem]. rewrite S1, S2, S4.
  repeat (split; [solve [auto] |]). split; [now apply Hc; left |]. split; [exact Hni |].
  split; [apply in_or_app; right; now left |].
  split; apply dget_ddel_same; auto; apply bytes_eqb_eq.
Qed.
End Step.
