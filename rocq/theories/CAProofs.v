(** Proofs of the properties of the request processing. *)
From Verif Require Export CAPres CASpec.
From Verif Require Import CADbProofs.
Local Open Scope Z_scope.

Lemma set_db_id s : set_db s (s_db s) = s. Proof. destruct s; reflexivity. Qed.
Lemma with_certs_id d : with_certs d (db_certs d) = d. Proof. destruct d; reflexivity. Qed.

Lemma body_in_cases b l : body_in b l = true -> In b l. Proof. apply body_in_In. Qed.

Section Proofs.
Variable w : world.
Local Notation H := (w_H w).

Definition new_entry (v : env) (d : cert_db) (confirmed : bool) (c : cert) : db_entry :=
  {| e_state := if confirmed then CONFIRMED else NOT_CONFIRMED; e_cert := c; e_digest := H c;
     e_issue := if db_save_date_time d then Some (v_now v) else None;
     e_upd_digest := None; e_upd_date := None; e_rev := None |}.

Lemma add_certs_eq v m confirmed certs : forall s,
  add_certs w v m certs confirmed s =
  (set_db s (with_certs (s_db s) (db_certs (s_db s) ++ map (new_entry v (s_db s) confirmed) certs)), ROk tt).
Proof.
  induction certs as [| c certs IH]; intros s; cbn [add_certs map].
  - rewrite app_nil_r, with_certs_id, set_db_id. reflexivity.
  - unfold bindM, lift_db.
    replace (add_cert H (s_db s) c (if confirmed then CONFIRMED else NOT_CONFIRMED) (v_now v))
      with (Ok (with_certs (s_db s) (db_certs (s_db s) ++ [new_entry v (s_db s) confirmed c]))).
    + rewrite IH. cbn. rewrite <- app_assoc. reflexivity.
    + destruct confirmed; reflexivity.
Qed.

Lemma store_tx_ok m certs s s' x :
  store_tx m certs s = (s', ROk x) ->
  exists tx, m_tx m = Some tx /\ ~ In tx (s_ids s) /\
  s' = set_tx s (s_ids s ++ [tx]) (dset pair_eqb (tx, m_sender m) certs (s_txcerts s)).
Proof.
  unfold store_tx. intros E. minv.
  match goal with E : (if ?b then _ else _) _ = _ |- _ => destruct b eqn:Em end; [minv |]. minv.
  eexists. split; [eassumption |]. split; [now apply mem_false | reflexivity].
Qed.

(** Exact effect of a successful [process_after_request] for an accepted response. *)
Lemma process_after_ok v q r enc s s' r' :
  process_after w v q r enc s = (s', ROk r') ->
  is_cert_rep (r_body r) = true -> r_ok r = true -> r_tx r = m_tx q ->
  let confirm := check_if_used q enc in
  r' = (if confirm then with_implicit r else r) /\
  exists tx d1,
    m_tx q = Some tx /\ ~ In tx (s_ids s) /\ s_ids s' = s_ids s ++ [tx] /\
    (if body_eqb (r_body r) B_kup
     then exists old new, hd_error (m_extra q) = Some old /\ hd_error (r_certs r) = Some new /\
          change_cert_state H (s_db s) old (if confirm then UPDATED else UPDATED_BUT_NOT_CONFIRMED)
                            None (Some new) (v_now v) = Ok d1
     else d1 = s_db s) /\
    s_db s' = with_certs d1 (db_certs d1 ++ map (new_entry v d1 confirm) (r_certs r)) /\
    (if confirm
     then s_confirmed s' = s_confirmed s ++ [tx] /\ s_creq s' = s_creq s /\ s_cresp s' = s_cresp s
          /\ s_ccerts s' = s_ccerts s
     else s_confirmed s' = s_confirmed s /\ s_creq s' = dset bytes_eqb tx q (s_creq s)
          /\ s_cresp s' = dset bytes_eqb tx r' (s_cresp s)
          /\ s_ccerts s' = dset bytes_eqb tx (r_certs r) (s_ccerts s)
          /\ s_stfl s' = s_stfl s) /\
    s_kem s' = s_kem s /\ s_chal s' = s_chal s.
Proof.
  intros E Hb Hok Htx. cbv zeta. unfold process_after in E. cbv zeta in E.
  assert (Hb' : body_in (r_body r) [B_ip; B_cp; B_ccp; B_kup] = true).
  { unfold is_cert_rep in Hb. destruct (r_body r); try discriminate; reflexivity. }
  rewrite Hb', Hok in E. cbn [negb] in E.
  apply bindM_ok in E. destruct E as ([] & s1 & E1 & E).
  apply store_tx_ok in E1. destruct E1 as (tx & Ht & Hn & ->).
  set (s1 := set_tx s _ _) in E.
  apply bindM_ok in E. destruct E as ([] & s2 & E2 & E).
  apply bindM_ok in E. destruct E as ([] & s3 & E3 & E).
  apply bindM_ok in E. destruct E as ([] & s4 & E4 & E). minv.
  split; [reflexivity |].
  assert (A2 : s_ids s2 = s_ids s1 /\ s_db s2 = s_db s1 /\ s_confirmed s2 = s_confirmed s1 /\ s_creq s2 = s_creq s1
    /\ s_cresp s2 = s_cresp s1 /\ s_ccerts s2 = s_ccerts s1 /\ s_stfl s2 = s_stfl s1 /\ s_kem s2 = s_kem s1 /\ s_chal s2 = s_chal s1).
  { destruct (check_if_used q enc && body_eqb (r_body r) B_ccp); minv; repeat split. }
  assert (A3 : exists d1, (if body_eqb (r_body r) B_kup
     then exists old new, hd_error (m_extra q) = Some old /\ hd_error (r_certs r) = Some new /\
          change_cert_state H (s_db s) old (if check_if_used q enc then UPDATED else UPDATED_BUT_NOT_CONFIRMED)
                            None (Some new) (v_now v) = Ok d1
     else d1 = s_db s) /\ s3 = set_db s2 d1).
  { destruct (body_eqb (r_body r) B_kup).
    - destruct (m_extra q) as [| old ?]; [minv |]. destruct (r_certs r) as [| new ?]; [minv |].
      unfold add_may_update in E3. minv.
      match goal with E : change_cert_state _ _ _ _ _ _ _ = Ok ?d |- _ => exists d end. split; [| reflexivity].
      exists old, new. decompose [and] A2. replace (s_db s) with (s_db s2) by assumption. auto.
    - minv. exists (s_db s). split; [reflexivity |]. decompose [and] A2.
      replace (s_db s) with (s_db s2) by assumption. symmetry. apply set_db_id. }
  destruct A3 as (d1 & Hd1 & ->).
  exists tx, d1. split; [exact Ht |]. split; [exact Hn |].
  decompose [and] A2. clear A2. rewrite <- and_assoc.
  destruct (check_if_used q enc) eqn:Ec.
  - apply bindM_ok in E4. destruct E4 as ([] & s5 & E5 & E4).
    rewrite add_certs_eq in E5. injection E5 as <-.
    apply bindM_ok in E4. destruct E4 as ([] & s6 & E6 & E4).
    unfold conf_add_confirmed in E6. rewrite Ht in E6. minv.
    match type of E4 with stfl_after _ _ _ _ ?x = _ => pose proof (stfl_after_conf w q (r_certs r) 0 x) as [K Kd] end.
    rewrite E4 in K, Kd. cbn [fst] in K, Kd.
    destruct K as (K1 & K2 & K3 & K4 & K5 & K6 & K7). cbn in *.
    rewrite K1, K2, K3, K4, K5, K6, K7, Kd. repeat split; try congruence; assumption.
  - apply bindM_ok in E4. destruct E4 as ([] & s5 & E5 & E4).
    rewrite add_certs_eq in E5. injection E5 as <-.
    unfold conf_add in E4. rewrite Ht, Htx, Ht in E4. minv. cbn in *.
    repeat split; try congruence; assumption.
Qed.

(** ** Certificate requests *)

Definition pcr_accepts (v : env) (q : msg) (s s' : ca) (r : resp) : Prop :=
  exists certs enc r0,
    is_cert_req (m_body q) = true /\ v_issue v q = Ok (true, certs, enc) /\
    reply_to v q (resp_body (m_body q)) true None certs s = (s, ROk r0) /\
    process_after w v q r0 enc s = (s', ROk r) /\
    same_key_check w s q = Ok tt /\ cert_is_updated w v q s = Ok tt /\ v_orig v q = Ok tt /\
    wrong_integrity w q = Ok tt.

Lemma pcr_ok v q must s s' r :
  process_cert_request w v q must s = (s', ROk r) ->
  validate_header w v q must false = Ok tt /\ is_cert_req (m_body q) = true /\
  ((r_ok r = false /\ (exists e, reply_to v q (r_body r) false (Some e) (r_certs r) s' = (s', ROk r)) /\
    (r_body r = resp_body (m_body q) \/ r_body r = B_error))
   \/ pcr_accepts v q s s' r).
Proof.
  unfold process_cert_request. intros E.
  apply bindM_ok in E. destruct E as ([] & s0 & E0 & E). apply lift_ok in E0. destruct E0 as [-> Hh].
  destruct (negb (is_cert_req (m_body q))) eqn:Hb; [minv |]. apply Bool.negb_false_iff in Hb.
  split; [exact Hh |]. split; [exact Hb |].
  apply catch_ok in E. destruct E as [E | (s1 & e & m & p & _ & Ep & E)].
  - minv. match goal with E : process_by_body _ _ _ _ = _ |- _ => unfold process_by_body in E; rename E into E1 end.
    apply bindM_ok in E1. destruct E1 as ([] & s1 & E2 & E1).
    assert (s1 = s). { eapply pure_state; [| exact E2]. purify; apply pure_kur_checks. } subst s1.
    apply bindM_ok in E1. destruct E1 as ([r0 enc] & s1 & E3 & E1).
    apply issue_ok in E3. destruct E3 as (-> & ok & certs & Hi & Hrep). cbn [fst snd] in E1.
    pose proof Hrep as Hrep'. apply reply_to_ok in Hrep'. destruct Hrep' as (_ & t & n & Ht & Hn & Hr0).
    destruct ok.
    + right. exists certs, enc, r0. repeat match goal with H : unit |- _ => destruct H end. auto 10.
    + left. unfold process_after in E1. cbv zeta in E1. subst r0. cbn in E1.
      assert (Hx : s' = s /\ r = {| r_body := resp_body (m_body q); r_ok := false; r_fail := Some ECMPTestSuite;
        r_tx := Some t; r_rnonce := Some n; r_snonce := resp_snonce v q; r_certs := certs;
        r_implicit := false; r_inner := [] |}).
      { destruct (negb _); minv; auto. }
      destruct Hx as [-> ->]. cbn. split; [reflexivity |]. split; [| now left].
      eexists. exact Hrep.
  - left. destruct e; cbn in Ep; inversion Ep; subst p;
      pose proof E as E'; apply reply_to_ok in E'; destruct E' as (-> & t & n & Ht & Hn & ->); cbn;
      (split; [reflexivity |]; split; [eexists; exact E | auto]).
Qed.

Lemma resp_body_cert_rep b : is_cert_req b = true -> is_cert_rep (resp_body b) = true.
Proof. destruct b; cbn; auto; discriminate. Qed.

Lemma pcr_accepts_facts v q s s' r :
  pcr_accepts v q s s' r ->
  exists certs enc tx sn,
    m_tx q = Some tx /\ m_snonce q = Some sn /\ r_tx r = Some tx /\ r_rnonce r = Some sn /\
    r_snonce r = resp_snonce v q /\
    r_ok r = true /\ r_body r = resp_body (m_body q) /\ r_certs r = certs /\ r_inner r = [] /\
    v_issue v q = Ok (true, certs, enc) /\ r_implicit r = check_if_used q enc /\
    ~ In tx (s_ids s) /\ s_ids s' = s_ids s ++ [tx].
Proof.
  intros (certs & enc & r0 & Hb & Hi & Hrep & Hpa & _).
  apply reply_to_ok in Hrep. destruct Hrep as (_ & t & n & Ht & Hn & ->).
  apply process_after_ok in Hpa; [| now apply resp_body_cert_rep | reflexivity | now symmetry].
  destruct Hpa as (-> & tx & d1 & Ht' & Hni & Hids & _). cbn in *.
  exists certs, enc, tx, n. rewrite Ht in Ht'. injection Ht' as ->.
  destruct (check_if_used q enc); cbn; repeat split; auto.
Qed.

(** ** The dispatcher *)

Definition pre_ok (v : env) (m : msg) (s s1 : ca) : Prop :=
  (match m_extra m with [] => True | c :: _ => not_allowed w v m c s = Ok tt end) /\
  (if body_in (m_body m) [B_rr; B_genm] then s1 = s else verify_protection w v m s = (s1, ROk tt)) /\
  (if body_in (m_body m) [B_certConf; B_error] then True else not_confirmed_check w m s1 = (s1, ROk tt)).

Lemma handle_ok v m s s' fl :
  handle w v m s = (s', ROk fl) -> exists s1, pre_ok v m s s1 /\ dispatch w v m s1 = (s', ROk fl).
Proof.
  unfold handle, pre_ok. intros E.
  apply bindM_ok in E. destruct E as (s0 & s0' & E0 & E). apply get_ok in E0. destruct E0 as [-> ->].
  apply bindM_ok in E. destruct E as ([] & s1 & E1 & E).
  apply bindM_ok in E. destruct E as ([] & s2 & E2 & E).
  apply bindM_ok in E. destruct E as ([] & s3 & E3 & E).
  apply bindM_ok in E. destruct E as ([] & s4 & E4 & E).
  assert (s1 = s). { eapply pure_state; [| exact E1]. purify. } subst s1.
  assert (s3 = s2). { eapply pure_state; [| exact E3]. purify. apply pure_compromised. } subst s3.
  assert (s4 = s2). { eapply pure_state; [| exact E4]. purify. apply pure_not_confirmed. } subst s4.
  exists s2. split; [| exact E]. split; [| split].
  - destruct (m_extra m); [exact I | minv; assumption].
  - destruct (body_in (m_body m) [B_rr; B_genm]); [minv; reflexivity | exact E2].
  - destruct (body_in (m_body m) [B_certConf; B_error]); [exact I | exact E4].
Qed.

Inductive dispatched (v : env) (m : msg) (s s' : ca) : flow -> Prop :=
| Disp_challenge r :
    (m_body m = B_ir \/ m_body m = B_cr) -> m_challenge m = true ->
    process_challenge v m s = (s', ROk r) -> dispatched v m s s' (Done r)
| Disp_popdecr r :
    m_body m = B_popdecr -> process_popdecr w v m s = (s', ROk r) -> dispatched v m s s' (Fall r)
| Disp_nested r :
    m_body m = B_nested -> process_nested w v m s = (s', ROk r) -> dispatched v m s s' (Done r)
| Disp_cert s1 s2 r :
    is_cert_req (m_body m) = true ->
    validate_protection w v m true s = (s1, ROk tt) -> stfl_add_msg w m s1 = (s2, ROk tt) ->
    process_cert_request w v m true s2 = (s', ROk r) -> dispatched v m s s' (Fall r)
| Disp_rr r :
    m_body m = B_rr -> process_rr w v m s = (s', ROk r) -> validate_header w v m true false = Ok tt ->
    dispatched v m s s' (Fall r)
| Disp_rr_err e r :
    m_body m = B_rr -> e = EBadMessageCheck \/ e = EBadKeyUsage \/ e = EBodyRelevant ->
    s' = fst ((lift m (validate_header w v m true false) ;;; process_rr w v m) s) ->
    (exists x, snd ((lift m (validate_header w v m true false) ;;; process_rr w v m) s) = RErr e x) ->
    rp_error v m e s' = (s', ROk r) -> dispatched v m s s' (Fall r)
| Disp_conf r :
    m_body m = B_certConf -> process_cert_conf w v m s = (s', ROk r) -> dispatched v m s s' (Fall r)
| Disp_genm r :
    m_body m = B_genm -> process_genm w v m s = (s', ROk r) -> validate_header w v m false false = Ok tt ->
    dispatched v m s s' (Done r).

Lemma dispatch_ok v m s s' fl : dispatch w v m s = (s', ROk fl) -> dispatched v m s s' fl.
Proof.
  unfold dispatch. destruct (body_in (m_body m) [B_ir; B_cr] && m_challenge m) eqn:Ec.
  - apply Bool.andb_true_iff in Ec. destruct Ec as [Eb Ec]. apply body_in_In in Eb. intros E.
    apply bindM_ok in E. destruct E as (r & s1 & E1 & E).
    apply bindM_ok in E. destruct E as (r' & s2 & E2 & E). apply protect_ok in E2. destruct E2 as (-> & -> & _). minv.
    eapply Disp_challenge; eauto. cbn in Eb. intuition auto.
  - clear Ec. intros E. destruct (m_body m) eqn:Hb; try (minv; fail).
    all: try (apply bindM_ok in E; destruct E as ([] & s1 & E1 & E);
              apply bindM_ok in E; destruct E as ([] & s2 & E2 & E);
              apply bindM_ok in E; destruct E as (r & s3 & E3 & E); minv;
              eapply Disp_cert; eauto; now rewrite Hb).
    all: apply bindM_ok in E; destruct E as (r & s1 & E1 & E).
    all: try (minv; eapply Disp_conf; eauto; fail).
    all: try (minv; eapply Disp_popdecr; eauto; fail).
    all: try (minv; eapply Disp_nested; eauto; fail).
    + (* rr *) minv. apply catch_ok in E1. destruct E1 as [E1 | (s3 & e & x & p & E1 & Ep & E2)].
      * minv. eapply Disp_rr; eauto.
      * eapply Disp_rr_err with (e := e).
        -- exact Hb.
        -- destruct e; inversion Ep; auto.
        -- rewrite E1. cbn. destruct e; inversion Ep; subst p;
             eapply pure_state; solve [apply pure_rp_error | exact E2].
        -- exists x. now rewrite E1.
        -- assert (X : s1 = s3). { destruct e; inversion Ep; subst p; eapply pure_state; eauto using pure_rp_error. }
           subst s3. destruct e; inversion Ep; subst p; exact E2.
    + (* genm *) destruct r. apply lift_ok in E1. destruct E1 as [-> E1].
      apply bindM_ok in E. destruct E as (r' & s1 & E2 & E). apply bindM_ok in E. destruct E as ([] & s2 & E3 & E). minv.
      assert (s2 = s1). { eapply pure_state; [| exact E3]. purify. } subst s2.
      eapply Disp_genm; eauto.
Qed.

(** ** Replies *)

Definition is_error_reply (v : env) (m : msg) (e : exn) (x : msg) (r : resp) : Prop :=
  r_ok r = false /\ r_inner r = [] /\ r_certs r = [] /\
  let y := match e with EBodyRelevant => x | _ => m end in
  r_tx r = m_tx y /\ r_rnonce r = m_snonce y /\
  (r_body r = B_error \/ (e = EBodyRelevant /\
     ((m_body x = B_rr /\ r_body r = B_rp) \/ (is_cert_req (m_body x) = true /\ r_body r = resp_body (m_body x))))) /\
  r_fail r = Some (match e with
                   | EInvalidSignature => EBadMessageCheck
                   | _ => if is_cmp e then e else ESystemFailure end).

Lemma process_request_ok v m s s' r :
  process_request w v m s = (s', ROk r) ->
  (handle w v m s = (s', ROk (Done r)))
  \/ (exists s1, handle w v m s = (s1, ROk (Fall r)) /\ kem_update w m s1 = (s', ROk tt))
  \/ (exists e x, handle w v m s = (s', RErr e x) /\ is_error_reply v m e x r).
Proof.
  unfold process_request. destruct (handle w v m s) as [s1 [[r1 | r1] | e x]]; intros E.
  - left. inversion E; subst; reflexivity.
  - right; left. apply bindM_ok in E. destruct E as ([] & s2 & E1 & E).
    apply protect_ok in E. destruct E as (-> & -> & _). eauto.
  - right; right. exists e, x.
    assert (Hp : e <> EBodyRelevant -> forall e', protect v m (error_resp v m e') s1 = (s', ROk r) ->
                 (e' = match e with EInvalidSignature => EBadMessageCheck
                             | _ => if is_cmp e then e else ESystemFailure end) ->
                 (s1, @RErr flow e x) = (s', RErr e x) /\ is_error_reply v m e x r).
    { intros Hne e' Ep He'. apply protect_ok in Ep. destruct Ep as (-> & -> & _). split; [reflexivity |].
      unfold is_error_reply. cbn. subst e'. destruct e; try contradiction; repeat split; auto. }
    destruct e; try (eapply Hp; [discriminate | exact E | reflexivity]).
    clear Hp. cbn [is_cmp] in E. unfold body_relevant_error in E.
    destruct (body_eqb (m_body x) B_rr) eqn:Er; [| destruct (is_cert_req (m_body x)) eqn:Ec].
    + apply body_eqb_eq in Er. apply bindM_ok in E. destruct E as (r1 & s2 & E1 & E).
      apply protect_ok in E. destruct E as (-> & -> & _). apply reply_to_ok in E1.
      destruct E1 as (-> & t & n & Ht & Hn & ->). split; [reflexivity |].
      unfold is_error_reply; cbn; repeat split; auto.
    + apply bindM_ok in E. destruct E as (r1 & s2 & E1 & E).
      apply protect_ok in E. destruct E as (-> & -> & _). apply reply_to_ok in E1.
      destruct E1 as (-> & t & n & Ht & Hn & ->). split; [reflexivity |].
      unfold is_error_reply; cbn; repeat split; auto.
    + apply protect_ok in E. destruct E as (-> & -> & _). split; [reflexivity |].
      unfold is_error_reply; cbn; repeat split; auto.
Qed.

Lemma step_reply s m v s' r :
  step w s (m, v) = (s', Reply r) <-> process_request w v m s = (s', ROk r).
Proof.
  unfold step. cbn [fst snd]. destruct (process_request w v m s) as [s1 [r1 | e x]]; split; intros E; inversion E; auto.
Qed.

End Proofs.
