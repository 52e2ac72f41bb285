(** Revocation requests, the echo of header fields and what is recorded in the
    database (C17, C19, C47). *)
From Verif Require Export CAStepProofs.
From Verif Require Import CADbProofs.
Local Open Scope Z_scope.

Section Req.
Variable w : world.
Local Notation H := (w_H w).

(** *** C17: a revocation request is carried out completely or not at all *)
Definition revocation (v : env) (m : msg) (d : cert_db) (d' : cert_db) : Prop :=
  exists rd rsn tgt,
    m_rr m = [rd] /\ d_reason rd = Ok rsn /\ w_tmpl_match w (d_template rd) tgt = true /\
    (exists e, In e (db_certs d) /\ e_cert e = tgt) /\
    change_cert_state H d tgt
      (if is_remove rsn then REVIVED else REVOKED)
      (if is_remove rsn then None
       else Some {| re_reason := rsn; re_cert := tgt; re_hash := None; re_date := Some (v_now v) |})
      None (v_now v) = Ok d'.

Definition rr_result (v : env) (m : msg) (s : ca) (o : ca * res resp) : Prop :=
  match o with
  | (s', ROk r) => (r_ok r = false /\ s' = s /\ r_fail r <> None) \/
                   (r_ok r = true /\ r_fail r = None /\ exists d, revocation v m (s_db s) d /\ s' = set_db s d)
  | (s', RErr _ _) => s' = s
  end.

Lemma rr_result_reject v m s e : rr_result v m s (reply_to v m B_rp false (Some e) [] s).
Proof.
  destruct (reply_to v m B_rp false (Some e) [] s) as [s' [r | e' x]] eqn:E.
  - apply reply_to_ok in E. destruct E as (-> & t & n & _ & _ & ->). left. cbn. repeat split. discriminate.
  - cbn. symmetry. change s with (fst (s, @ROk resp {| r_body := B_rp; r_ok := false; r_fail := None; r_tx := None; r_rnonce := None; r_snonce := []; r_certs := []; r_implicit := false; r_inner := [] |})) at 1.
    cbn. pose proof (pure_reply_to v m B_rp false (Some e) [] s) as P. rewrite E in P. cbn in P. auto.
Qed.

Lemma rr_result_raise v m s x e : rr_result v m s (raise x e s).
Proof. reflexivity. Qed.

Lemma rr_result_rp_catch v m p s : rr_result v m s (p s) -> rr_result v m s (rp_catch v m p s).
Proof.
  unfold rp_catch, catch. destruct (p s) as [s1 [r | e x]]; [exact (fun x => x) |]. cbn [rr_result]. intros ->.
  destruct e; cbn [is_cmp]; try apply rr_result_reject; reflexivity.
Qed.

Lemma rr_result_lift {A} v m x (r : result A) k s :
  (forall a, r = Ok a -> rr_result v m s (k a s)) -> rr_result v m s (bindM (lift x r) k s).
Proof. intros Hk. destruct r; cbn; [now apply Hk | reflexivity]. Qed.

Lemma find_template_In t l c : find_template w t l = Some c -> In c l /\ w_tmpl_match w t c = true.
Proof. apply find_some. Qed.

Lemma build_rp_ok m issued revoked r c : build_rp w m issued revoked = Ok (Ok (r, c)) ->
  exists rd, m_rr m = [rd] /\ d_reason rd = Ok r /\ In c issued /\ w_tmpl_match w (d_template rd) c = true /\
  is_remove r = existsb (cert_eqb c) revoked.
Proof.
  unfold build_rp. destruct (m_rr m) as [| rd [| ? ?]]; try discriminate.
  destruct (rev_details w rd issued revoked) as [x | e] eqn:E; [| destruct (is_cmp e); discriminate].
  intros X. injection X as ->. exists rd. split; [reflexivity |].
  unfold rev_details in E. apply bind_ok in E. destruct E as (u & _ & E).
  destruct (find_template w (d_template rd) issued) as [c' |] eqn:F; [| discriminate].
  apply bind_ok in E. destruct E as (r' & Er & E). apply find_template_In in F.
  destruct (is_remove r') eqn:Ei; destruct (existsb (cert_eqb c') revoked) eqn:Ex; try discriminate;
    injection E as <- <-; rewrite Ei, ?Ex; destruct F; repeat split; auto.
Qed.

Lemma rr_result_change v m s f d (H0 : f (s_db s) = Ok d) :
  m_tx m <> None -> m_snonce m <> None -> revocation v m (s_db s) d ->
  rr_result v m s ((lift_db m f ;;; reply_to v m B_rp true None []) s).
Proof.
  intros Ht Hn R. unfold bindM, lift_db. rewrite H0. unfold reply_to, ca_header, bindM, octets.
  destruct (m_snonce m) as [n |]; [| contradiction]. destruct (m_tx m) as [t |]; [| contradiction].
  cbn. right. repeat split. eauto.
Qed.

Lemma rr_result_change' v m s f :
  m_tx m <> None -> m_snonce m <> None -> (forall d, f (s_db s) = Ok d -> revocation v m (s_db s) d) ->
  rr_result v m s ((lift_db m f ;;; reply_to v m B_rp true None []) s).
Proof.
  intros Ht Hn R. destruct (f (s_db s)) as [d | e] eqn:E.
  - eapply rr_result_change; eauto.
  - unfold bindM, lift_db. rewrite E. reflexivity.
Qed.

Lemma request_nonces_some m : request_nonces m = Ok tt -> m_tx m <> None /\ m_snonce m <> None.
Proof.
  unfold request_nonces. destruct (body_eqb _ _); [discriminate |]. destruct (body_eqb _ _); [discriminate |].
  destruct (m_snonce m); [| discriminate]. destruct (m_tx m); [| discriminate]. split; discriminate.
Qed.

Lemma issued_has_entry d c : In c (issued_certs d) -> exists e, In e (db_certs d) /\ e_cert e = c.
Proof.
  unfold issued_certs. intros Hs. apply in_map_iff in Hs. destruct Hs as (e & <- & He).
  apply filter_In in He. exists e. split; [apply He | reflexivity].
Qed.

Lemma get_cert_in d c e : get_cert H d c = Some e -> In e (db_certs d) /\ e_digest e = H c.
Proof.
  unfold get_cert. intros G. apply get_by_digest_some in G. destruct G as (a & b & -> & Hd & _).
  split; [apply in_or_app; right; now left |]. auto.
Qed.

Lemma rr_spec v m s : rr_result v m s (process_rr w v m s).
Proof.
  unfold process_rr. unfold bindM at 1, get at 1.
  assert (Hk : forall (k : option bytes -> M resp), (forall t, rr_result v m s (k t s)) ->
    rr_result v m s (bindM (match s_kem s with [] => ret None | _ => t <- octets m (m_tx m) ;; ret (Some t) end) k s)).
  { intros k Hk. destruct (s_kem s); [apply Hk |]. unfold bindM, octets. destruct (m_tx m); cbn; [apply Hk | reflexivity]. }
  apply Hk. clear Hk. intros tx. cbv zeta. apply rr_result_rp_catch.
  apply rr_result_lift. intros [] _. apply rr_result_lift. intros [] Hn.
  apply request_nonces_some in Hn. destruct Hn as [Ht Hn].
  destruct (m_extra m) as [| c l]; [reflexivity |]. destruct (m_rr m) as [| d l'] eqn:Hrr; [reflexivity |].
  apply rr_result_lift. intros r Hr.
  destruct (is_revoked w s c && negb (is_remove r)); [reflexivity |].
  apply rr_result_lift. intros [] _.
  destruct (is_remove r && is_revoked w s c) eqn:Es.
  - unfold self_revive. apply rr_result_rp_catch. unfold bindM at 1, get at 1.
    destruct (get_cert H (s_db s) c) as [e |] eqn:G; [| reflexivity].
    apply rr_result_lift. intros o Ho. destruct o as [[r' c'] | x]; [| apply rr_result_reject].
    apply build_rp_ok in Ho. destruct Ho as (rd & Hrd & Hr' & Hi & Hm & _). destruct Hi as [<- | []].
    unfold revive. apply rr_result_change'; auto. intros d' Hd.
    rewrite Hrr in Hrd. injection Hrd as <- ->. rewrite Hr in Hr'. injection Hr' as <-.
    apply Bool.andb_true_iff in Es. destruct Es as [Es _].
    exists d, r, (e_cert e). rewrite Es. repeat split; auto. apply get_cert_in in G. exists e. split; [apply G | reflexivity].
  - apply rr_result_lift. intros o Ho. destruct o as [[r' tgt] | x]; [| apply rr_result_reject].
    apply build_rp_ok in Ho. destruct Ho as (rd & Hrd & Hr' & Hi & Hm & Hrem).
    rewrite Hrr in Hrd. injection Hrd as <- ->. rewrite Hr in Hr'. injection Hr' as <-.
    apply issued_has_entry in Hi.
    destruct (is_remove r) eqn:Ei.
    + unfold revive. apply rr_result_change'; auto. intros d' Hd. exists d, r, tgt. rewrite Ei. auto 8.
    + unfold mark_revoked. apply rr_result_change'; auto. intros d' Hd. exists d, r, tgt. rewrite Ei. auto 8.
Qed.

Lemma rr_dispatch v m s : m_body m = B_rr ->
  rr_result v m s (match dispatch w v m s with
                   | (s', ROk (Done r)) | (s', ROk (Fall r)) => (s', ROk r)
                   | (s', RErr e x) => (s', RErr e x) end).
Proof.
  intros Hb. unfold dispatch. rewrite Hb. cbn [body_in existsb body_eqb andb orb].
  assert (A : rr_result v m s ((lift m (validate_header w v m true false) ;;; process_rr w v m) s)).
  { apply rr_result_lift. intros _ _. apply rr_spec. }
  unfold bindM at 1. unfold catch.
  destruct ((lift m (validate_header w v m true false) ;;; process_rr w v m) s) as [s1 [r | e x]]; [exact A |].
  cbn in A. subst s1.
  assert (R : forall e', rr_result v m s (match bindM (rp_error v m e') (fun r => ret (Fall r)) s with
     | (s', ROk (Done r)) | (s', ROk (Fall r)) => (s', ROk r) | (s', RErr e x) => (s', RErr e x) end)).
  { intros e'. unfold bindM, rp_error. pose proof (rr_result_reject v m s e') as R.
    destruct (reply_to v m B_rp false (Some e') [] s) as [? [? | ? ?]]; exact R. }
  destruct e; try reflexivity; apply R.
Qed.

Lemma set_kem_db s k d : set_kem (set_db s d) k = set_db (set_kem s k) d. Proof. reflexivity. Qed.

(** The effect of one revocation request on the CA: nothing but the bookkeeping of
    KEM secrets, or exactly one change of one certificate. *)
Lemma rr_step s m v s' o :
  step w s (m, v) = (s', o) -> m_body m = B_rr ->
  exists k,
    (s' = set_kem s k /\ accepted o = false) \/
    (exists d, revocation v m (s_db s) d /\ s' = set_db (set_kem s k) d /\
               forall r, o = Reply r -> r_ok r = true /\ r_body r = B_rp).
Proof.
  intros E Hb. apply step_outcome in E.
  assert (Hpre : forall s1 x, pre w v m s = (s1, x) -> s1 = s).
  { intros s1 x Ep. assert (P : pure (pre w v m)).
    { unfold pre. rewrite Hb. cbn [body_in existsb body_eqb orb]. purify; [apply pure_compromised | apply pure_not_confirmed]. }
    specialize (P s). rewrite Ep in P. exact P. }
  assert (Hid : s = set_kem s (s_kem s)) by (destruct s; reflexivity).
  destruct E as [e E Ha _ | s1 e x E Ed Ha _ | s1 r E Ed -> | s1 s2 r E Ed -> Ho]; apply Hpre in E; subst.
  - exists (s_kem s). left. split; [exact Hid | exact Ha].
  - pose proof (rr_dispatch v m s Hb) as R. rewrite Ed in R. cbn in R. subst. exists (s_kem s). left. split; [exact Hid | exact Ha].
  - exfalso. apply dispatch_ok in Ed. inversion Ed; subst;
      repeat match goal with X : _ \/ _ |- _ => destruct X end; congruence.
  - pose proof (rr_dispatch v m s Hb) as R. rewrite Ed in R.
    destruct (kem_update_only w m s2) as (k & Hk). exists k. rewrite Hk.
    assert (Hbd : r_body r = B_rp).
    { apply dispatch_ok in Ed. inversion Ed; subst; try congruence.
      - match goal with X : is_cert_req _ = true |- _ => rewrite Hb in X; discriminate end.
      - match goal with X : process_rr _ _ _ _ = _ |- _ => apply rr_reply in X; destruct X as (? & ? & X); apply reply_to_ok in X; destruct X as (_ & ? & ? & _ & _ & ->) end. reflexivity.
      - match goal with X : rp_error _ _ _ _ = _ |- _ => apply reply_to_ok in X; destruct X as (_ & ? & ? & _ & _ & ->) end. reflexivity. }
    destruct R as [(R1 & -> & _) | (R1 & _ & d & R2 & ->)].
    + left. split; [reflexivity |]. destruct Ho as [-> | ->]; [exact R1 | reflexivity].
    + right. exists d. split; [exact R2 |]. split; [reflexivity |].
      intros r0 ->. destruct Ho as [Ho | Ho]; [injection Ho as ->; auto | discriminate].
Qed.

(** *** C19: which message a reply answers *)
Definition raisesB (P : msg -> Prop) {A} (p : M A) : Prop :=
  forall s s' x, p s = (s', RErr EBodyRelevant x) -> P x.
Lemma raises_B P {A} (p : M A) : raises P p -> raisesB P p.
Proof. intros R s s' x E. eapply R; eauto. Qed.
Lemma rb_bind P {A B} (p : M A) (k : A -> M B) : raisesB P p -> (forall a, raisesB P (k a)) -> raisesB P (bindM p k).
Proof.
  intros Hp Hk s s' x E. apply bindM_err in E. destruct E as [E | (a & s1 & _ & E)]; [eapply Hp | eapply Hk]; eauto.
Qed.

Lemma stfl_after_not_body m certs : forall i s s' e x,
  stfl_after w m certs i s = (s', RErr e x) -> e <> EBodyRelevant.
Proof.
  induction certs as [| c certs IH]; intros i s s' e x E; cbn [stfl_after] in E; [minv |].
  apply bindM_err in E. destruct E as [E | (a & s1 & _ & E)]; [| eauto].
  destruct (w_is_stfl w c); [| minv]. destruct (nth_error (m_reqs m) i) as [q |]; [| apply raise_err in E; destruct E as (_ & -> & _); discriminate].
  apply bindM_err in E. destruct E as [E | (o & s1 & _ & E)].
  - apply lift_err in E. destruct E as (_ & _ & E). destruct (q_popo q); cbn in E; inversion E; discriminate.
  - destruct o as [idx |]; [| minv]. unfold stfl_add in E.
    apply bindM_err in E. destruct E as [E | (s2 & s3 & _ & E)]; [minv |].
    destruct (stfl_state w s2 c); [| minv]. apply raise_err in E. destruct E as (_ & -> & _). discriminate.
Qed.

Lemma rb_confirm_certs (P : msg -> Prop) v m req certs : P m -> raisesB P (confirm_certs w v m req certs).
Proof.
  intros Hm. induction certs as [| c certs IH]; cbn [confirm_certs]; [apply raises_B, raises_ret |].
  apply rb_bind; [apply raises_B; now apply raises_lift_db | intros _].
  apply rb_bind; [| intros _; exact IH].
  destruct (w_is_stfl w c); [| apply raises_B, raises_ret]. destruct (body_in _ _); [| apply raises_B, raises_ret].
  intros s s' x E. apply stfl_after_not_body in E. contradiction.
Qed.

Lemma rb_process_cert_conf (P : msg -> Prop) v m : P m -> raisesB P (process_cert_conf w v m).
Proof.
  intros Hm. unfold process_cert_conf. destruct (m_tx m) as [tx |] eqn:Et; [| apply raises_B; now apply raises_raise].
  apply rb_bind; [apply raises_B, raises_get | intros s].
  destruct (mem tx (s_confirmed s)); [apply raises_B; now apply raises_raise |].
  destruct (dget bytes_eqb tx (s_creq s)) as [req |]; [| apply raises_B; now apply raises_raise].
  destruct (m_snonce m); [| apply raises_B; now apply raises_raise].
  destruct (m_rnonce m); [| apply raises_B; now apply raises_raise].
  destruct (dget bytes_eqb tx (s_cresp s)) as [r |]; [| apply raises_B; now apply raises_raise].
  do 3 (apply rb_bind; [apply raises_B; now apply raises_lift | intros _]).
  destruct (dget bytes_eqb tx (s_ccerts s)) as [[| c0 cs] |]; try (apply raises_B; now apply raises_raise).
  apply rb_bind; [apply raises_B; now apply raises_lift | intros _].
  apply rb_bind; [apply raises_B; now apply rs_reply_to | intros rep].
  apply rb_bind; [apply raises_B; rs | intros _].
  apply rb_bind; [now apply rb_confirm_certs | intros _].
  apply rb_bind; [apply raises_B; unfold remove_request; rs | intros _].
  apply raises_B; rs.
Qed.

Lemma rb_process_added (P : msg -> Prop) v m : P m -> (forall i, added_ids m = Ok i -> P i) -> raisesB P (process_added w v m).
Proof.
  intros Hm Hi s s' x E. unfold process_added in E. apply bindM_err in E.
  destruct E as [E | (i & s1 & E1 & E)]; [apply lift_err in E; destruct E as (_ & -> & _); exact Hm |].
  apply lift_ok in E1. destruct E1 as [-> Ei]. specialize (Hi _ Ei).
  revert E. match goal with |- ?p s = _ -> _ => assert (R : raisesB P p) end; [| apply R].
  apply rb_bind; [apply raises_B; now apply raises_lift | intros _].
  apply rb_bind; [apply raises_B; now apply rs_verify_added | intros _].
  apply rb_bind; [| intros r; apply raises_B; now apply rs_protect].
  destruct (is_cert_req (m_body i)); [apply raises_B; now apply rs_process_cert_request |].
  destruct (body_eqb (m_body i) B_certConf); [now apply rb_process_cert_conf | apply raises_B; now apply raises_raise].
Qed.

Lemma added_ids_in m i : added_ids m = Ok i -> m_inner m = [i] /\ m_tx i = m_tx m /\ m_snonce i = m_snonce m.
Proof.
  intros E. split; [now apply added_ids_inner |]. unfold added_ids in E.
  destruct (m_inner m) as [| j [| ? ?]]; try discriminate.
  destruct (m_snonce m) as [osn |]; [| discriminate].
  destruct (m_tx m) as [otx |]; [| discriminate]. destruct (m_tx j) as [itx |] eqn:Et; [| discriminate].
  destruct (bytes_eqb itx otx) eqn:E1; [| discriminate]. apply bytes_eqb_eq in E1. subst otx. cbn [negb] in E.
  destruct (m_snonce j) as [isn |] eqn:En; [| discriminate].
  destruct (bytes_eqb isn osn) eqn:E1; [| discriminate]. apply bytes_eqb_eq in E1. subst osn. cbn [negb] in E.
  apply bind_ok in E. destruct E as (rn & _ & E).
  destruct (negb (len16 itx)); [discriminate |]. destruct (negb (len16 isn)); [discriminate |].
  assert (i = j). { destruct rn as [r |]; [destruct (len16 r); [| discriminate] |]; injection E as <-; reflexivity. }
  subst j. auto.
Qed.

Lemma answers_reply_to v q b ok e certs s s' r :
  reply_to v q b ok e certs s = (s', ROk r) ->
  (if ok then In b (good_bodies (m_body q)) /\ e = None
   else e <> None /\ (b = B_error \/
        (is_cert_req (m_body q) || body_eqb (m_body q) B_rr = true /\ In b (good_bodies (m_body q))))) ->
  answers q r.
Proof.
  intros E Hb. apply reply_to_ok in E. destruct E as (_ & t & n & Ht & Hn & ->).
  unfold answers. cbn. rewrite Ht, Hn. repeat split; try exact Hb.
Qed.

Lemma resp_body_good b : is_cert_req b = true -> In (resp_body b) (good_bodies b).
Proof. destruct b; try discriminate; cbn; auto. Qed.

Lemma pcr_answers v q must s s' r : process_cert_request w v q must s = (s', ROk r) -> answers q r.
Proof.
  intros E. apply pcr_ok in E. destruct E as (_ & Hb & [(Hok & (e & Hr) & Hbd) | Acc]).
  - eapply answers_reply_to; [exact Hr |]. split; [discriminate |].
    destruct Hbd as [-> | ->]; [right | now left]. rewrite Hb. split; [reflexivity | now apply resp_body_good].
  - destruct Acc as (certs & enc & r0 & _ & Hi & Hrep & Hpa & _).
    pose proof Hrep as Hrep'. apply reply_to_ok in Hrep'. destruct Hrep' as (_ & t & n & Ht & Hn & Hr0).
    apply process_after_ok in Hpa; [| subst r0; now apply resp_body_cert_rep | now subst r0 | subst r0; now symmetry].
    destruct Hpa as (-> & _).
    assert (A : answers q r0).
    { eapply answers_reply_to; [exact Hrep |]. split; [now apply resp_body_good | reflexivity]. }
    destruct (check_if_used q enc); [| exact A]. destruct A as (A1 & A2 & A3 & A4). repeat split; cbn; auto.
Qed.

Lemma conf_answers v q s s' r : m_body q = B_certConf -> process_cert_conf w v q s = (s', ROk r) -> answers q r.
Proof.
  intros Hb E. apply cert_conf_ok in E.
  destruct E as (tx & req & r0 & c & cs & _ & _ & _ & _ & _ & _ & _ & _ & Hrep & _).
  eapply answers_reply_to; [exact Hrep |]. rewrite Hb. cbn. auto.
Qed.

Lemma leaf_answers v q s s' r : leaf w v q s s' r -> answers q r.
Proof.
  intros (s1 & _ & [(must & E) | [Hb E]]); [eapply pcr_answers; eauto | eapply conf_answers; eauto].
Qed.

Lemma contains_one m i : m_inner m = [i] -> contains m i.
Proof. intros Hi. apply contains_inner with (i := i); [rewrite Hi; now left | constructor]. Qed.

Lemma added_answers v m s s' r : process_added w v m s = (s', ROk r) ->
  exists i, m_inner m = [i] /\ m_tx i = m_tx m /\ m_snonce i = m_snonce m /\ answers i r.
Proof.
  intros E. apply process_added_ok in E. destruct E as (i & _ & Ha & L).
  apply added_ids_in in Ha. destruct Ha as (A & B & C). exists i. repeat split; auto; apply (leaf_answers _ _ _ _ _ L).
Qed.

Lemma batch_loop_answers v es : forall s s' rs, batch_loop w v es s = (s', ROk rs) -> Forall2 entry_answered es rs.
Proof.
  induction es as [| e es IH]; intros s s' rs E; cbn [batch_loop] in E; [minv; constructor |].
  apply bindM_ok in E. destruct E as (r & s1 & E1 & E).
  apply bindM_ok in E. destruct E as (rs' & s2 & E2 & E). apply ret_ok in E. destruct E as [_ ->].
  constructor; [| eapply IH; eauto]. apply batch_entry_ok in E1.
  destruct E1 as [(Hb & i & Hi & Ha & L) | [_ L]].
  - apply added_ids_in in Ha. destruct Ha as (A & B & C). exists i. repeat split; auto; apply (leaf_answers _ _ _ _ _ L).
  - exists e. repeat split; auto; apply (leaf_answers _ _ _ _ _ L).
Qed.

Lemma rb_batch_entry v e : raisesB (contains e) (batch_entry w v e).
Proof.
  unfold batch_entry.
  assert (S : contains e e) by constructor.
  destruct (body_eqb (m_body e) B_nested).
  - destruct (negb _); [apply raises_B; now apply raises_raise |].
    apply rb_process_added; [exact S |]. intros i Hi. apply added_ids_in in Hi. destruct Hi as (Hi & _). now apply contains_one.
  - destruct (body_eqb (m_body e) B_certConf).
    + apply rb_bind; [now apply rb_process_cert_conf | intros r; apply raises_B; now apply rs_protect].
    + apply raises_B. rs; try (now apply rs_verify_inner); try (now apply rs_process_cert_request); now apply rs_protect.
Qed.

Lemma rb_batch_loop m v es : incl es (m_inner m) -> raisesB (contains m) (batch_loop w v es).
Proof.
  induction es as [| e es IH]; intros Hi; cbn [batch_loop]; [apply raises_B, raises_ret |].
  apply rb_bind.
  - intros s s' x E. apply rb_batch_entry in E. eapply contains_inner; [| exact E]. apply Hi. now left.
  - intros r. apply rb_bind; [apply IH; intros y Hy; apply Hi; now right | intros rs'; apply raises_B; rs].
Qed.

Lemma like_refl m : like m m. Proof. repeat split; constructor. Qed.

Lemma rb_dispatch v m : raisesB (fun x => contains m x /\ (~ is_batch m -> like m x) /\ (m_body m <> B_nested -> x = m)) (dispatch w v m).
Proof.
  set (P := fun x => contains m x /\ (~ is_batch m -> like m x) /\ (m_body m <> B_nested -> x = m)).
  assert (Pm : P m) by (split; [constructor | split; [intros _; apply like_refl | reflexivity]]).
  unfold dispatch. destruct (body_in (m_body m) [B_ir; B_cr] && m_challenge m).
  { apply raises_B. rs; [now apply rs_process_challenge | now apply rs_protect]. }
  destruct (m_body m) eqn:Hb; try (apply raises_B; now apply raises_raise).
  all: try (apply raises_B; rs; try (now apply rs_validate_protection); try (now apply rs_stfl_add_msg);
            try (now apply rs_process_cert_request); try (now apply rs_process_popdecr); try (now apply rs_process_genm); fail).
  - (* rr *) apply raises_B. rs. apply raises_catch; [rs; now apply rs_process_rr |].
    intros e x q _ Eq. destruct e; inversion Eq; now apply rs_reply_to.
  - (* nested *) apply rb_bind; [| intros r; apply raises_B, raises_ret].
    unfold process_nested. apply rb_bind; [apply raises_B; now apply rs_verify_nested | intros _].
    apply rb_bind; [apply raises_B; now apply raises_lift | intros _].
    destruct (m_inner m) as [| i [| j l]] eqn:Hi; [apply raises_B; now apply raises_raise | |].
    + apply rb_process_added; [exact Pm |]. intros i' Ha. apply added_ids_in in Ha. destruct Ha as (A & B & C).
      split; [| split; [intros _; repeat split; auto | congruence]]; now apply contains_one.
    + assert (Hbt : is_batch m) by (split; [exact Hb | rewrite Hi; cbn; lia]).
      unfold process_batched. apply rb_bind; [apply raises_B; now apply raises_lift | intros _].
      apply rb_bind.
      * intros s s' x E. apply (rb_batch_loop m) in E; [| intros y; exact (fun z => z)].
        split; [exact E |]. split; [intros N; contradiction | congruence].
      * intros rs0. apply raises_B. rs. now apply rs_protect.
  - (* certConf *) apply rb_bind; [now apply rb_process_cert_conf | intros r; apply raises_B, raises_ret].
Qed.

Lemma popdecr_answers v m s s' r : m_body m = B_popdecr -> process_popdecr w v m s = (s', ROk r) -> answers m r.
Proof.
  intros Hb E. unfold process_popdecr in E.
  apply bindM_ok in E. destruct E as (tx & s3 & _ & E).
  apply bindM_ok in E. destruct E as ([b cs] & s4 & _ & E). cbn [fst snd] in E.
  destruct b as [b |]; [| minv]. destruct b; try (minv; fail).
  apply bindM_ok in E. destruct E as ([] & s5 & _ & E).
  apply bindM_ok in E. destruct E as (r1 & s6 & E1 & E).
  apply bindM_ok in E. destruct E as ([] & s7 & _ & E). apply ret_ok in E. destruct E as [_ ->].
  eapply answers_reply_to; [exact E1 |]. rewrite Hb. cbn. auto.
Qed.

Lemma all_some_map l ids : all_some l = Some ids -> l = map Some ids.
Proof.
  revert ids. induction l as [| [x |] l IH]; intros ids E; cbn in E; try discriminate; [injection E as <-; reflexivity |].
  destruct (all_some l) as [t |]; [| discriminate]. injection E as <-. cbn. f_equal. now apply IH.
Qed.
Lemma uniq_nodup l : uniq l = true -> NoDup l.
Proof.
  induction l as [| x l IH]; cbn; intros E; constructor; apply Bool.andb_true_iff in E; destruct E as [E1 E2]; auto.
  apply Bool.negb_true_iff in E1. now apply mem_false.
Qed.
Lemma len16_forall l : forallb len16 l = true -> Forall (fun x : bytes => length x = 16%nat) l.
Proof. intros E. apply Forall_forall. intros x Hx. rewrite forallb_forall in E. apply E in Hx. now apply Nat.eqb_eq. Qed.

Lemma guard_true b e : guard b e = Ok tt -> b = true.
Proof. destruct b; [reflexivity | discriminate]. Qed.

Lemma batch_distinct m : batch_checks m = Ok tt -> distinct_ids m.
Proof.
  unfold batch_checks. intros E. apply bind_ok in E. destruct E as ([] & E & _). unfold batch_ids in E.
  destruct (m_tx m) as [tx |] eqn:Et; [| discriminate]. destruct (m_snonce m) as [sn |] eqn:En; [| discriminate].
  destruct (all_some (map m_tx (m_inner m))) as [ids |] eqn:E1; [| discriminate].
  destruct (all_some (map m_snonce (m_inner m))) as [sns |] eqn:E2; [| discriminate].
  apply bind_ok in E. destruct E as ([] & E3 & E). apply guard_true in E3.
  apply bind_ok in E. destruct E as ([] & E4 & E). apply guard_true in E4.
  apply bind_ok in E. destruct E as ([] & E5 & E). apply guard_true in E5. apply guard_true in E.
  apply all_some_map in E1, E2.
  exists (tx :: ids), (sn :: sns). cbn [map]. rewrite Et, En, E1, E2.
  repeat (split; [solve [reflexivity | now apply uniq_nodup | now apply len16_forall] |]). now apply len16_forall.
Qed.

Lemma answered_self m r : answers m r -> answered m r.
Proof. intros A. left. exists m. split; [apply like_refl |]. auto. Qed.

Lemma dispatch_answered v m s s' fl : dispatch w v m s = (s', ROk fl) -> answered m (flow_resp fl).
Proof.
  intros E. apply dispatch_ok in E.
  destruct E as [r0 Hb Hc E0 | r0 Hb E0 | r0 Hb E0 | s2 s3 r0 Hb E1 E2 E3 | r0 Hb E0 _ | e r0 Hb He _ _ E0 | r0 Hb E0 | r0 Hb E0 _];
    cbn [flow_resp].
  - apply challenge_reply in E0. destruct E0 as (s1 & E0). apply answered_self. eapply answers_reply_to; [exact E0 |].
    destruct Hb as [-> | ->]; cbn; auto.
  - apply answered_self. eapply popdecr_answers; eauto.
  - apply process_nested_ok in E0. destruct E0 as (s1 & _ & _ & N).
    destruct N as [i Hi Ha L | tx sn rs0 Hl Hck Eb Htx Hsn ->].
    + left. apply added_ids_in in Ha. destruct Ha as (_ & A & B). exists i.
      split; [repeat split; auto; now apply contains_one |]. split; [eapply leaf_answers; eauto | congruence].
    + right. split; [split; assumption |]. cbn. repeat (split; [solve [auto] |]).
      split; [eapply batch_loop_answers; eauto | now apply batch_distinct].
  - apply answered_self. eapply pcr_answers; eauto.
  - apply answered_self. pose proof (rr_spec v m s) as R. rewrite E0 in R.
    apply rr_reply in E0. destruct E0 as (ok & e & E0). pose proof E0 as E0'.
    apply reply_to_ok in E0'. destruct E0' as (_ & t & n & _ & _ & Hr). subst r0. cbn in R.
    eapply answers_reply_to; [exact E0 |]. rewrite Hb. cbn.
    destruct R as [(-> & _ & R) | (-> & R & _)]; auto 6.
  - apply answered_self. eapply answers_reply_to; [exact E0 |]. rewrite Hb. cbn. split; [discriminate | auto].
  - apply answered_self. eapply conf_answers; eauto.
  - apply genm_reply in E0. destruct E0 as (s1 & E0). apply answered_self. eapply answers_reply_to; [exact E0 |].
    rewrite Hb. cbn. auto.
Qed.

Lemma error_answers v m e x r : is_error_reply v m e x r ->
  answers (match e with EBodyRelevant => x | _ => m end) r /\ r_ok r = false.
Proof.
  intros (Hok & Hi & _ & A & B & C & D). split; [| exact Hok]. unfold answers. rewrite Hok.
  split; [exact A |]. split; [exact B |]. split; [exact Hi |]. split; [rewrite D; discriminate |].
  destruct C as [C | (-> & [(Hb & C) | (Hb & C)])]; [now left | right; rewrite Hb, C; cbn; auto |].
  right. rewrite Hb. split; [reflexivity |]. rewrite C. now apply resp_body_good.
Qed.

Lemma step_answers s m v s' r : step w s (m, v) = (s', Reply r) ->
  answered m r \/ (is_batch m /\ r_ok r = false /\ exists q, contains m q /\ answers q r).
Proof.
  intros E. apply step_outcome in E.
  destruct E as [e E Ha Hr | s1 e x E Ed Ha Hr | s1 r0 E Ed Eo | s1 s2 r0 E Ed _ [Eo | Eo]].
  - specialize (Hr r eq_refl). apply error_answers in Hr. destruct Hr as [Hr _]. left. apply answered_self.
    destruct e; exact Hr.
  - specialize (Hr r eq_refl). apply error_answers in Hr. destruct Hr as [Hr Hok].
    destruct e; try (left; apply answered_self; exact Hr).
    apply rb_dispatch in Ed. destruct Ed as (Hc & Hl & Hx).
    destruct (body_eqb (m_body m) B_nested) eqn:Hb.
    + apply body_eqb_eq in Hb. destruct (le_lt_dec 2 (length (m_inner m))) as [Hn | Hn].
      * right. split; [split; assumption |]. split; [exact Hok |]. exists x. auto.
      * left. left. exists x. split; [apply Hl; intros [_ X]; lia |]. split; [exact Hr |]. congruence.
    + left. left. exists x.
      assert (Hnb : m_body m <> B_nested) by (intros X; rewrite X in Hb; discriminate).
      rewrite (Hx Hnb) in *. split; [apply like_refl |]. auto.
  - injection Eo as <-. left. apply dispatch_answered in Ed. exact Ed.
  - injection Eo as <-. left. apply dispatch_answered in Ed. exact Ed.
  - discriminate.
Qed.

Lemma empty_nested s m v s' o : step w s (m, v) = (s', o) -> m_body m = B_nested -> m_inner m = [] ->
  accepted o = false /\ only_stfl s s'.
Proof.
  intros E Hb Hi. apply step_outcome in E.
  destruct E as [e E Ha _ | s1 e x E Ed Ha _ | s1 r E Ed -> | s1 s2 r E Ed -> Ho].
  - split; [exact Ha | eapply pre_only_stfl; eauto].
  - split; [exact Ha |]. apply pre_only_stfl in E. eapply only_stfl_trans; [exact E |].
    unfold dispatch in Ed. rewrite Hb in Ed. cbn [body_in existsb body_eqb andb orb] in Ed.
    apply bindM_err in Ed. destruct Ed as [Ed | (r & s2 & Ed & Er)]; [| minv].
    unfold process_nested in Ed. rewrite Hi in Ed.
    apply bindM_err in Ed. destruct Ed as [Ed | (a & s2 & E1 & Ed)].
    { pose proof (os_verify_nested w v m s1) as P. rewrite Ed in P. exact P. }
    apply bindM_err in Ed. destruct Ed as [Ed | (b & s3 & E2 & Ed)].
    + apply lift_err in Ed. destruct Ed as (-> & _).
      pose proof (os_verify_nested w v m s1) as P. rewrite E1 in P. exact P.
    + apply lift_ok in E2. destruct E2 as [-> _]. apply raise_err in Ed. destruct Ed as (-> & _).
      pose proof (os_verify_nested w v m s1) as P. rewrite E1 in P. exact P.
  - exfalso. apply dispatch_ok in Ed. inversion Ed; subst;
      try (repeat match goal with X : _ \/ _ |- _ => destruct X end; congruence).
    match goal with X : process_nested _ _ _ _ = _ |- _ => apply process_nested_ok in X; destruct X as (s2 & _ & _ & N) end.
    inversion N as [i Hi' | tx sn rs Hl]; [congruence | rewrite Hi in Hl; cbn in Hl; lia].
  - exfalso. apply dispatch_ok in Ed. inversion Ed; subst; try congruence.
    match goal with X : is_cert_req _ = true |- _ => rewrite Hb in X; discriminate end.
Qed.

(** *** C47: issued certificates are recorded, rejected requests record nothing *)
Lemma pcr_accepts_recorded v q s s' r : pcr_accepts w v q s s' r ->
  r_ok r = true /\
  (forall c, In c (r_certs r) -> recorded w (s_db s') c (if r_implicit r then CONFIRMED else NOT_CONFIRMED)) /\
  length (db_certs (s_db s')) = (length (db_certs (s_db s)) + length (r_certs r))%nat.
Proof.
  intros (certs & enc & r0 & Hb & Hi & Hrep & Hpa & _).
  apply reply_to_ok in Hrep. destruct Hrep as (_ & t & n & Ht & Hn & ->).
  apply process_after_ok in Hpa; [| now apply resp_body_cert_rep | reflexivity | now symmetry].
  cbv zeta in Hpa. destruct Hpa as (-> & tx & d1 & _ & _ & _ & Hd1 & Hdb & _). cbn [r_certs r_body] in *.
  assert (Hl : length (db_certs d1) = length (db_certs (s_db s))).
  { destruct (body_eqb _ _); [| now subst]. destruct Hd1 as (old & new & _ & _ & Hc).
    apply change_touches_one in Hc. destruct Hc as (a & e & b & e' & A & B & _).
    rewrite A, B, !app_length. reflexivity. }
  split; [destruct (check_if_used q enc); reflexivity |]. split.
  - intros c Hc. assert (Hc' : In c certs) by (destruct (check_if_used q enc); exact Hc).
    exists (new_entry w v d1 (check_if_used q enc) c). rewrite Hdb. cbn [db_certs with_certs].
    split; [apply in_or_app; right; now apply in_map |]. destruct (check_if_used q enc); repeat split.
  - rewrite Hdb. cbn [db_certs with_certs]. rewrite app_length, map_length, Hl. destruct (check_if_used q enc); reflexivity.
Qed.

Lemma stfl_after_none m certs : (forall c, In c certs -> w_is_stfl w c = false) ->
  forall i s, stfl_after w m certs i s = (s, ROk tt).
Proof.
  induction certs as [| c certs IH]; intros Hc i s; cbn [stfl_after]; [reflexivity |].
  rewrite (Hc c) by now left. unfold bindM, ret. apply IH. intros x Hx. apply Hc. now right.
Qed.

Lemma process_after_db v q r enc s s' e x :
  process_after w v q r enc s = (s', RErr e x) -> r_tx r = m_tx q ->
  ((forall c, In c (r_certs r) -> w_is_stfl w c = false) \/ m_implicit q = false) -> s_db s' = s_db s.
Proof.
  intros E Htx Hst. unfold process_after in E. destruct (negb (body_in _ _)); [minv |]. destruct (negb (r_ok r)); [minv |].
  cbv zeta in E.
  apply bindM_err in E. destruct E as [E | (a & s1 & E1 & E)].
  { unfold store_tx in E. apply bindM_err in E. destruct E as [E | (tx & s1 & E1 & E)].
    - apply octets_err in E. destruct E as (-> & _). reflexivity.
    - apply octets_ok in E1. destruct E1 as [-> _]. unfold bindM, get in E.
      destruct (mem tx (s_ids s)); [apply raise_err in E; destruct E as (-> & _); reflexivity | minv]. }
  apply store_tx_ok in E1. destruct E1 as (tx & Ht & _ & ->). set (s1 := set_tx s _ _) in E.
  assert (D1 : s_db s1 = s_db s) by reflexivity. clearbody s1.
  apply bindM_err in E. destruct E as [E | (b & s2 & E2 & E)]; [destruct (_ && _); minv |].
  assert (D2 : s_db s2 = s_db s1). { destruct (_ && _); [apply modify_ok in E2 | apply ret_ok in E2; destruct E2 as [E2 _]]; rewrite E2; reflexivity. }
  apply bindM_err in E. destruct E as [E | (b3 & s3 & E3 & E)].
  { rewrite <- D1, <- D2. destruct (body_eqb (r_body r) B_kup); [| minv].
    destruct (m_extra q) as [| old l]; [apply raise_err in E; destruct E as (-> & _); reflexivity |].
    destruct (r_certs r) as [| new l']; [apply raise_err in E; destruct E as (-> & _); reflexivity |].
    unfold add_may_update in E. apply lift_db_err in E. destruct E as (-> & _). reflexivity. }
  clear E3. exfalso. apply bindM_err in E. destruct E as [E | (b4 & s4 & _ & E)]; [| minv].
  destruct (check_if_used q enc) eqn:Ec.
  - apply bindM_err in E. destruct E as [E | (b5 & s5 & _ & E)]; [rewrite add_certs_eq in E; discriminate |].
    apply bindM_err in E. destruct E as [E | (b6 & s6 & _ & E)]; [unfold conf_add_confirmed in E; rewrite Ht in E; minv |].
    destruct Hst as [Hst | Hst]; [| apply check_if_used_implicit in Ec; congruence].
    rewrite stfl_after_none in E by exact Hst. discriminate.
  - apply bindM_err in E. destruct E as [E | (b5 & s5 & _ & E)]; [rewrite add_certs_eq in E; discriminate |].
    unfold conf_add in E. rewrite Htx, Ht in E. apply bindM_err in E. destruct E as [E | (b6 & s6 & _ & E)]; minv.
Qed.

Lemma pcr_reject_db v q must s s' x :
  process_cert_request w v q must s = (s', x) ->
  (forall r, x = ROk r -> r_ok r = false) ->
  ((forall certs enc, v_issue v q = Ok (true, certs, enc) -> forall c, In c certs -> w_is_stfl w c = false) \/ m_implicit q = false) ->
  s_db s' = s_db s.
Proof.
  intros E Hx Hst. unfold process_cert_request in E.
  unfold bindM at 1 in E.
  destruct (validate_header w v q must false) as [u | e0]; [| cbn in E; injection E as <- _; reflexivity].
  cbn [lift] in E. unfold ret at 1 in E.
  destruct (negb (is_cert_req (m_body q))); [cbn in E; injection E as <- _; reflexivity |].
  (* the part inside [try] *)
  match type of E with catch ?p ?h s = _ => set (p0 := p) in E; set (h0 := h) in E end.
  assert (A : forall s1 e m, p0 s = (s1, RErr e m) -> s_db s1 = s_db s).
  { intros s1 e m Ep. unfold p0 in Ep.
    apply bindM_err in Ep. destruct Ep as [Ep | (a & sa & E1 & Ep)]; [apply lift_err in Ep; destruct Ep as (-> & _); reflexivity |].
    apply lift_ok in E1. destruct E1 as [-> _]. unfold bindM at 1, get at 1 in Ep.
    do 3 (apply bindM_err in Ep; destruct Ep as [Ep | (? & ? & E1 & Ep)];
          [apply lift_err in Ep; destruct Ep as (-> & _); reflexivity | apply lift_ok in E1; destruct E1 as [-> _]]).
    unfold process_by_body in Ep.
    match type of Ep with bindM ?p _ s = _ => assert (Pp : pure p) by (purify; apply pure_kur_checks) end.
    apply bindM_err in Ep. destruct Ep as [Ep | (a1 & sa & E1 & Ep)].
    { specialize (Pp s). rewrite Ep in Pp. cbn in Pp. now subst. }
    specialize (Pp s). rewrite E1 in Pp. cbn in Pp. subst sa. clear E1.
    apply bindM_err in Ep. destruct Ep as [Ep | ([r0 enc] & sa & E1 & Ep)].
    { assert (Pi : pure (issue v q)) by (unfold issue; purify; apply pure_reply_to).
      specialize (Pi s). rewrite Ep in Pi. cbn in Pi. now subst. }
    apply issue_ok in E1. destruct E1 as (-> & ok & certs & Hi & Hrep).
    apply reply_to_ok in Hrep. destruct Hrep as (_ & t & n & Ht & Hn & Hr0). cbn [fst snd] in Ep.
    destruct ok.
    - eapply process_after_db; [exact Ep | subst r0; now rewrite Ht |]. subst r0. cbn [r_certs].
      destruct Hst as [Hst | Hst]; [left; eapply Hst; eauto | now right].
    - unfold process_after in Ep. subst r0. cbn [r_body r_ok negb] in Ep. destruct (negb _); minv. }
  assert (B : forall s1 r, p0 s = (s1, ROk r) -> r_ok r = false -> s_db s1 = s_db s).
  { intros s1 r Ep Hok. unfold p0 in Ep.
    apply bindM_ok in Ep. destruct Ep as (? & ? & E1 & Ep). apply lift_ok in E1. destruct E1 as [-> _].
    unfold bindM at 1, get at 1 in Ep.
    do 3 (apply bindM_ok in Ep; destruct Ep as (? & ? & E1 & Ep); apply lift_ok in E1; destruct E1 as [-> _]).
    unfold process_by_body in Ep.
    match type of Ep with bindM ?p _ s = _ => assert (Pp : pure p) by (purify; apply pure_kur_checks) end.
    apply bindM_ok in Ep. destruct Ep as (a1 & sa & E1 & Ep).
    specialize (Pp s). rewrite E1 in Pp. cbn in Pp. subst sa. clear E1.
    apply bindM_ok in Ep. destruct Ep as ([r0 enc] & sa & E1 & Ep).
    apply issue_ok in E1. destruct E1 as (-> & ok & certs & Hi & Hrep).
    apply reply_to_ok in Hrep. destruct Hrep as (_ & t & n & Ht & Hn & Hr0). cbn [fst snd] in Ep.
    destruct ok.
    - exfalso. unfold process_after in Ep. subst r0. cbn [r_body r_ok negb] in Ep. destruct (negb _).
      + minv. discriminate.
      + cbv zeta in Ep. do 4 (apply bindM_ok in Ep; destruct Ep as (? & ? & _ & Ep)). apply ret_ok in Ep. destruct Ep as [_ ->].
        destruct (check_if_used q enc); discriminate.
    - unfold process_after in Ep. subst r0. cbn [r_body r_ok negb] in Ep. destruct (negb _); minv; reflexivity. }
  unfold catch in E. destruct (p0 s) as [s1 [r | e m]] eqn:Ep.
  - injection E as <- <-. eapply B; eauto.
  - specialize (A _ _ _ eq_refl). rewrite <- A. unfold h0 in E.
    destruct e; cbn in E; try (injection E as <- _; reflexivity);
      match type of E with reply_to ?v ?q ?b ?o ?f ?c ?s1 = _ =>
        pose proof (pure_reply_to v q b o f c s1) as P; rewrite E in P; cbn in P; now subst end.
Qed.

(** what a certificate request does to the database *)
Lemma cert_req_step s m v s' r :
  step w s (m, v) = (s', Reply r) -> is_cert_req (m_body m) = true -> m_challenge m = false ->
  if r_ok r
  then (forall c, In c (r_certs r) -> recorded w (s_db s') c (if r_implicit r then CONFIRMED else NOT_CONFIRMED)) /\
       length (db_certs (s_db s')) = (length (db_certs (s_db s)) + length (r_certs r))%nat
  else ((forall certs enc, v_issue v m = Ok (true, certs, enc) -> forall c, In c certs -> w_is_stfl w c = false) \/
        m_implicit m = false) -> s_db s' = s_db s.
Proof.
  intros E Hb Hc.
  assert (Hd : forall s1 s2 x, dispatch w v m s1 = (s2, x) ->
    (s_db s2 = s_db s1 /\ exists e y, x = RErr e y) \/
    exists s3 y, only_stfl s1 s3 /\ process_cert_request w v m true s3 = (s2, y) /\
      x = match y with ROk r => ROk (Fall r) | RErr e z => RErr e z end).
  { intros s1 s2 x Ed. unfold dispatch in Ed. rewrite Hc, Bool.andb_false_r in Ed.
    assert (Ed' : (validate_protection w v m true ;;; stfl_add_msg w m ;;;
                   r0 <- process_cert_request w v m true ;; ret (Fall r0)) s1 = (s2, x)).
    { destruct (m_body m); try discriminate; exact Ed. }
    clear Ed. unfold bindM at 1 in Ed'.
    pose proof (os_validate_protection w v m true s1) as O1.
    destruct (validate_protection w v m true s1) as [sa [u | e z]]; cbn [fst] in O1.
    2:{ left. injection Ed' as <- <-. split; [apply (only_stfl_fields _ _ O1) | eauto]. }
    unfold bindM at 1 in Ed'.
    pose proof (os_stfl_add_msg w m sa) as O2.
    destruct (stfl_add_msg w m sa) as [sb [u2 | e z]]; cbn [fst] in O2.
    2:{ left. injection Ed' as <- <-. split; [apply (only_stfl_fields _ _ (only_stfl_trans _ _ _ O1 O2)) | eauto]. }
    right. exists sb. unfold bindM in Ed'. destruct (process_cert_request w v m true sb) as [sc [y | e z]]; injection Ed' as <- <-.
    - exists (ROk y). split; [eapply only_stfl_trans; eauto |]. auto.
    - exists (RErr e z). split; [eapply only_stfl_trans; eauto |]. auto. }
  apply step_outcome in E.
  destruct E as [e E Ha Hr | s1 e x E Ed Ha Hr | s1 r0 E Ed Eo | s1 s2 r0 E Ed -> [Eo | Eo]].
  - cbn in Ha. rewrite Ha. intros _. apply pre_only_stfl in E. apply (only_stfl_fields _ _ E).
  - cbn in Ha. rewrite Ha. intros Hst. apply pre_only_stfl in E. apply only_stfl_fields in E. destruct E as [E _]. rewrite <- E.
    apply Hd in Ed. destruct Ed as [[Ed _] | (s3 & y & O & Ep & Ey)]; [exact Ed |].
    destruct y as [r1 | e1 z]; [discriminate |]. apply only_stfl_fields in O. destruct O as [O _]. rewrite <- O.
    eapply pcr_reject_db; [exact Ep | discriminate | exact Hst].
  - exfalso. apply Hd in Ed. destruct Ed as [(_ & ? & ? & Ed) | (s3 & y & _ & _ & Ey)]; [discriminate | destruct y; discriminate].
  - injection Eo as <-. apply Hd in Ed. destruct Ed as [(_ & ? & ? & Ed) | (s3 & y & O & Ep & Ey)]; [discriminate |].
    destruct y as [r1 | e1 z]; [| discriminate]. injection Ey as <-.
    apply pre_only_stfl in E. apply only_stfl_fields in E. destruct E as [E _]. apply only_stfl_fields in O. destruct O as [O _].
    destruct (kem_update_only w m s2) as (k & ->). cbn [s_db set_kem]. rewrite <- E, <- O.
    destruct (r_ok r) eqn:Hok.
    + apply pcr_ok in Ep. destruct Ep as (_ & _ & [(X & _) | Acc]); [congruence |].
      apply pcr_accepts_recorded in Acc. apply Acc.
    + intros Hst. eapply pcr_reject_db; [exact Ep | | exact Hst]. intros r1 X. injection X as <-. exact Hok.
  - discriminate.
Qed.
End Req.
