(** Transaction ids, confirmations and recorded certificates (C11, C15, C47). *)
From Verif Require Export CAProofs.
From Verif Require Import CADbProofs.
Local Open Scope Z_scope.

Section Fresh.
Variable f : ca -> list bytes.
Definition fresh (s s' : ca) (l : list bytes) : Prop :=
  NoDup l /\ (forall x, In x l -> ~ In x (f s) /\ In x (f s')) /\ incl (f s) (f s').

Lemma fresh_nil s s' : incl (f s) (f s') -> fresh s s' [].
Proof. intros Hi. split; [constructor | split; [intros x [] | exact Hi]]. Qed.
Lemma fresh_refl s : fresh s s [].
Proof. apply fresh_nil, incl_refl. Qed.
Lemma fresh_app s s1 s2 l1 l2 : fresh s s1 l1 -> fresh s1 s2 l2 -> fresh s s2 (l1 ++ l2).
Proof.
  intros (N1 & F1 & I1) (N2 & F2 & I2). split; [| split].
  - clear I1 I2. induction l1 as [| x l1 IH]; [exact N2 |]. inversion N1; subst. cbn. constructor.
    + intros Hx. apply in_app_or in Hx. destruct Hx as [Hx | Hx]; [contradiction |].
      destruct (F1 x (or_introl eq_refl)) as [_ A]. destruct (F2 x Hx) as [B _]. contradiction.
    + apply IH; [assumption |]. intros y Hy. apply F1. now right.
  - intros x Hx. apply in_app_or in Hx. destruct Hx as [Hx | Hx].
    + destruct (F1 x Hx) as [A B]. split; [exact A | apply I2, B].
    + destruct (F2 x Hx) as [A B]. split; [intros C; apply A, I1, C | exact B].
  - eapply incl_tran; eassumption.
Qed.
Lemma fresh_one s s' x : ~ In x (f s) -> f s' = f s ++ [x] -> fresh s s' [x].
Proof.
  intros N E. split; [constructor; [intros [] | constructor] | split].
  - intros y [<- | []]. split; [exact N |]. rewrite E. apply in_or_app. right. now left.
  - rewrite E. apply incl_appl, incl_refl.
Qed.
Lemma fresh_after s s1 s2 l : fresh s s1 l -> incl (f s1) (f s2) -> fresh s s2 l.
Proof. intros A B. rewrite <- (app_nil_r l). eapply fresh_app; [exact A | now apply fresh_nil]. Qed.
Lemma fresh_before s s1 s2 l : incl (f s) (f s1) -> fresh s1 s2 l -> fresh s s2 l.
Proof. intros A B. change l with ([] ++ l). eapply fresh_app; [apply fresh_nil, A | exact B]. Qed.
End Fresh.

Section Tx.
Variable w : world.
Local Notation H := (w_H w).

Definition grows (f : ca -> list bytes) : Prop :=
  forall v q s s', prim w v q s s' -> incl (f s) (f s').
Lemma grows_ids : grows s_ids.
Proof.
  intros v q s s' P. destruct P; cbn; try apply incl_refl. apply incl_appl, incl_refl.
Qed.
Lemma grows_confirmed : grows s_confirmed.
Proof.
  intros v q s s' P. destruct P; cbn; try apply incl_refl; apply incl_appl, incl_refl.
Qed.
Lemma tree_grows f v m s s' : grows f -> tree w v m s s' -> incl (f s) (f s').
Proof.
  intros G T. induction T as [a b (q & _ & P) | a | a b c _ I1 _ I2].
  - eapply G; eauto.
  - apply incl_refl.
  - eapply incl_tran; eauto.
Qed.
Lemma steps_grows f v q s s' : grows f -> steps w v q s s' -> incl (f s) (f s').
Proof. intros G T. eapply tree_grows; [exact G | eapply steps_tree; [apply part_self | exact T]]. Qed.

(** *** Accepted confirmations, exactly *)
Definition conf_accepts (v : env) (m : msg) (s s' : ca) (rep : resp) : Prop :=
  exists tx req r c cs,
    m_tx m = Some tx /\ ~ In tx (s_confirmed s) /\
    dget bytes_eqb tx (s_creq s) = Some req /\ dget bytes_eqb tx (s_cresp s) = Some r /\
    dget bytes_eqb tx (s_ccerts s) = Some (c :: cs) /\
    conf_nonces w m req r = Ok tt /\ conf_protection w m req = Ok tt /\
    pki_conf_checks w m (c :: cs) = Ok tt /\
    reply_to v m B_pkiconf true None [] s = (s, ROk rep) /\
    s_confirmed s' = s_confirmed s ++ [tx] /\
    s_creq s' = ddel bytes_eqb tx (s_creq s) /\ s_cresp s' = ddel bytes_eqb tx (s_cresp s) /\
    s_ccerts s' = ddel bytes_eqb tx (s_ccerts s) /\
    s_ids s' = s_ids s /\ s_kem s' = s_kem s /\ s_chal s' = s_chal s /\
    exists d1,
      (if body_eqb (r_body r) B_kup
       then exists old, hd_error (m_extra req) = Some old /\
            change_cert_state H (s_db s) old UPDATED None None (v_now v) = Ok d1
       else d1 = s_db s) /\
      s_db s' = db_run H d1 (map (fun x => Change x CONFIRMED None None (v_now v)) (c :: cs)) /\
      get_cert_state H d1 c = NOT_CONFIRMED /\
      (forall x, In x (c :: cs) -> get_cert_state H (s_db s') x = CONFIRMED).

Lemma confirm_state d c now d' : change_cert_state H d c CONFIRMED None None now = Ok d' ->
  get_cert_state H d' c = CONFIRMED /\ get_cert_state H d c = NOT_CONFIRMED /\
  (forall c', H c' <> H c -> get_cert_state H d' c' = get_cert_state H d c').
Proof.
  intros E. apply change_ok_shape in E. destruct E as (l' & El & -> & _).
  apply change_in_get in El. destruct El as (e & e' & G & G' & Ce & Oth).
  unfold get_cert_state, get_cert. cbn [db_certs with_certs]. rewrite G, G'. split; [| split].
  - apply change_entry_identity in Ce. apply Ce.
  - cbn in Ce. destruct (state_eqb (e_state e) NOT_CONFIRMED) eqn:X; [now apply state_eqb_eq in X | discriminate].
  - intros c' N. rewrite Oth; [reflexivity | exact N].
Qed.

Lemma confirm_certs_ok v m req certs : forall s s',
  confirm_certs w v m req certs s = (s', ROk tt) ->
  s_db s' = db_run H (s_db s) (map (fun x => Change x CONFIRMED None None (v_now v)) certs) /\
  (forall x, In x certs -> get_cert_state H (s_db s') x = CONFIRMED) /\
  (forall x, get_cert_state H (s_db s) x = CONFIRMED -> get_cert_state H (s_db s') x = CONFIRMED).
Proof.
  induction certs as [| c certs IH]; intros s s' E; cbn [confirm_certs] in E.
  - minv. cbn. split; [reflexivity |]. split; [intros x [] | auto].
  - apply bindM_ok in E. destruct E as ([] & s1 & E1 & E).
    apply lift_db_ok in E1. destruct E1 as (d & Ed & ->).
    apply bindM_ok in E. destruct E as ([] & s2 & E2 & E).
    assert (Hd : s_db s2 = d).
    { destruct (w_is_stfl w c); [| minv; reflexivity]. destruct (body_in _ _); [| minv; reflexivity].
      pose proof (stfl_after_conf w req [c] 0 (set_db s d)) as [_ K]. rewrite E2 in K. exact K. }
    apply IH in E. destruct E as (Er & Ec & Em). rewrite Hd in *.
    pose proof (confirm_state _ _ _ _ Ed) as (Hc & Hnc & Ho).
    split; [| split].
    + cbn [map]. unfold db_run in *. cbn [fold_left]. unfold db_step at 2. cbn [db_call]. rewrite Ed. exact Er.
    + intros x [<- | Hx]; [apply Em, Hc | apply Ec, Hx].
    + intros x Hx. apply Em. destruct (bytes_eq_dec (H x) (H c)) as [X | X].
      * unfold get_cert_state, get_cert in *. rewrite X in *. congruence.
      * rewrite Ho; assumption.
Qed.

Lemma cert_conf_ok v m s s' rep :
  process_cert_conf w v m s = (s', ROk rep) -> conf_accepts v m s s' rep.
Proof.
  unfold process_cert_conf. intros E.
  destruct (m_tx m) as [tx |] eqn:Htx; [| minv].
  apply bindM_ok in E. destruct E as (s0 & s0' & E0 & E). apply get_ok in E0. destruct E0 as [-> ->].
  destruct (mem tx (s_confirmed s)) eqn:Hm; [minv |]. apply mem_false in Hm.
  destruct (dget bytes_eqb tx (s_creq s)) as [req |] eqn:Hq; [| minv].
  destruct (m_snonce m) as [sn |] eqn:Hsn; [| minv]. destruct (m_rnonce m) as [rn |] eqn:Hrn; [| minv].
  destruct (dget bytes_eqb tx (s_cresp s)) as [r |] eqn:Hr; [| minv].
  apply bindM_ok in E. destruct E as ([] & s1 & E1 & E). apply lift_ok in E1. destruct E1 as [-> E1].
  apply bindM_ok in E. destruct E as ([] & s1 & E2 & E). apply lift_ok in E2. destruct E2 as [-> E2].
  apply bindM_ok in E. destruct E as ([] & s1 & E3 & E). apply lift_ok in E3. destruct E3 as [-> E3].
  destruct (dget bytes_eqb tx (s_ccerts s)) as [[| c cs] |] eqn:Hc; [minv | | minv].
  apply bindM_ok in E. destruct E as ([] & s1 & E4 & E). apply lift_ok in E4. destruct E4 as [-> E4].
  apply bindM_ok in E. destruct E as (rep' & s1 & E5 & E).
  assert (s1 = s) by (eapply pure_state; [apply pure_reply_to | exact E5]). subst s1.
  apply bindM_ok in E. destruct E as ([] & s1 & E6 & E).
  assert (A : exists d1, (if body_eqb (r_body r) B_kup
       then exists old, hd_error (m_extra req) = Some old /\
            change_cert_state H (s_db s) old UPDATED None None (v_now v) = Ok d1
       else d1 = s_db s) /\ s1 = set_db s d1).
  { destruct (body_eqb (r_body r) B_kup).
    - destruct (m_extra req) as [| old ?]; [minv |]. minv.
      match goal with E : change_cert_state _ _ _ _ _ _ _ = Ok ?d |- _ => exists d end. split; [| reflexivity].
      exists old. auto.
    - minv. exists (s_db s). split; [reflexivity |]. symmetry; apply set_db_id. }
  destruct A as (d1 & Hd1 & ->).
  apply bindM_ok in E. destruct E as ([] & s2 & E7 & E).
  assert (Hnc : get_cert_state H d1 c = NOT_CONFIRMED).
  { cbn [confirm_certs] in E7. apply bindM_ok in E7. destruct E7 as ([] & s7 & E7 & _).
    apply lift_db_ok in E7. destruct E7 as (d7 & E7 & _). apply confirm_state in E7. apply E7. }
  pose proof (confirm_certs_conf w v m req (c :: cs) (set_db s d1)) as K.
  pose proof E7 as E7'. apply confirm_certs_ok in E7'. destruct E7' as (Kd & Kc & _).
  rewrite E7 in K. cbn [fst] in K. destruct K as (K1 & K2 & K3 & K4 & K5 & K6 & K7). cbn in K1, K2, K3, K4, K5, K6, K7.
  apply bindM_ok in E. destruct E as ([] & s3 & E8 & E).
  unfold remove_request in E8. rewrite Htx in E8.
  apply bindM_ok in E8. destruct E8 as ([] & s4 & E9 & E8). apply modify_ok in E9. subst s4.
  apply bindM_ok in E8. destruct E8 as (s5 & s6 & E9 & E8). apply get_ok in E9. destruct E9 as [-> ->].
  cbn in E8. rewrite K1, Hc in E8. apply modify_ok in E8. subst s3.
  apply bindM_ok in E. destruct E as ([] & s4 & E9 & E). apply ret_ok in E. destruct E as [<- <-].
  exists tx, req, r, c, cs.
  assert (S : s_confirmed s' = s_confirmed s ++ [tx] /\
    s_creq s' = ddel bytes_eqb tx (s_creq s) /\ s_cresp s' = ddel bytes_eqb tx (s_cresp s) /\
    s_ccerts s' = ddel bytes_eqb tx (s_ccerts s) /\
    s_ids s' = s_ids s /\ s_kem s' = s_kem s /\ s_chal s' = s_chal s /\ s_db s' = s_db s2).
  { destruct (body_eqb (r_body r) B_ccp); [apply modify_ok in E9 | apply ret_ok in E9; destruct E9 as [E9 _]]; rewrite E9; cbn; rewrite ?K1, ?K2, ?K3, ?K4, ?K5, ?K6, ?K7; repeat split. }
  destruct S as (S1 & S2 & S3 & S4 & S5 & S6 & S7 & S8).
  repeat (split; [assumption |]).
  exists d1. split; [exact Hd1 |]. rewrite S8. split; [exact Kd |]. split; [exact Hnc | exact Kc].
Qed.

(** *** Replies to certificate requests and confirmations, inside or outside a nested message *)
Definition leaf (v : env) (q : msg) (s s' : ca) (r : resp) : Prop :=
  exists s1, steps w v q s s1 /\
    ((exists must, process_cert_request w v q must s1 = (s', ROk r)) \/
     (m_body q = B_certConf /\ process_cert_conf w v q s1 = (s', ROk r))).

Inductive nested_ok (v : env) (m : msg) (s s' : ca) (r : resp) : Prop :=
| NO_added i :
    m_inner m = [i] -> added_ids m = Ok i -> leaf v i s s' r -> nested_ok v m s s' r
| NO_batch tx sn rs :
    (length (m_inner m) >= 2)%nat -> batch_checks m = Ok tt ->
    batch_loop w v (m_inner m) s = (s', ROk rs) ->
    m_tx m = Some tx -> m_snonce m = Some sn ->
    r = {| r_body := B_nested; r_ok := true; r_fail := None; r_tx := Some tx; r_rnonce := Some sn;
           r_snonce := v_nonce v m; r_certs := []; r_implicit := false; r_inner := rs |} ->
    nested_ok v m s s' r.

Lemma process_added_ok v m s s' r :
  process_added w v m s = (s', ROk r) -> exists i, m_inner m = [i] /\ added_ids m = Ok i /\ leaf v i s s' r.
Proof.
  unfold process_added. intros E.
  apply bindM_ok in E. destruct E as (i & s1 & E1 & E). apply lift_ok in E1. destruct E1 as [-> Hi].
  exists i. split; [now apply added_ids_inner |]. split; [exact Hi |].
  apply bindM_ok in E. destruct E as (p & s1 & E1 & E). apply lift_ok in E1. destruct E1 as [-> _].
  apply bindM_ok in E. destruct E as ([] & s1 & E1 & E).
  apply bindM_ok in E. destruct E as (r1 & s2 & E2 & E).
  apply protect_ok in E. destruct E as (-> & -> & _).
  exists s1. split.
  - pose proof (pr_verify_added w v i false s) as P. rewrite E1 in P. exact P.
  - destruct (is_cert_req (m_body i)); [left; eauto |].
    destruct (body_eqb (m_body i) B_certConf) eqn:Eb; [right | minv].
    apply body_eqb_eq in Eb. auto.
Qed.

Lemma batch_entry_ok v e s s' r :
  batch_entry w v e s = (s', ROk r) ->
  (m_body e = B_nested /\ exists i, m_inner e = [i] /\ added_ids e = Ok i /\ leaf v i s s' r)
  \/ (m_body e <> B_nested /\ leaf v e s s' r).
Proof.
  unfold batch_entry. intros E. destruct (body_eqb (m_body e) B_nested) eqn:En.
  - left. apply body_eqb_eq in En. split; [exact En |]. destruct (negb _); [minv |]. now apply process_added_ok.
  - right. split; [intros X; rewrite X in En; discriminate |].
    destruct (body_eqb (m_body e) B_certConf) eqn:Ec.
    + apply body_eqb_eq in Ec. apply bindM_ok in E. destruct E as (r1 & s1 & E1 & E).
      apply protect_ok in E. destruct E as (-> & -> & _).
      exists s. split; [apply rt_refl | right; auto].
    + apply bindM_ok in E. destruct E as (p & s1 & E1 & E). apply lift_ok in E1. destruct E1 as [-> _].
      apply bindM_ok in E. destruct E as ([] & s1 & E1 & E).
      destruct (is_cert_req (m_body e)); [| minv].
      apply bindM_ok in E. destruct E as (r1 & s2 & E2 & E).
      apply protect_ok in E. destruct E as (-> & -> & _).
      exists s1. split; [| left; eauto].
      pose proof (pr_verify_inner w v e false s) as P. rewrite E1 in P. exact P.
Qed.

Lemma process_nested_ok v m s s' r :
  process_nested w v m s = (s', ROk r) ->
  exists s1, steps w v m s s1 /\ verify_nested w v m s = (s1, ROk tt) /\ nested_ok v m s1 s' r.
Proof.
  unfold process_nested. intros E.
  apply bindM_ok in E. destruct E as ([] & s1 & E1 & E).
  apply bindM_ok in E. destruct E as ([] & s2 & E2 & E). apply lift_ok in E2. destruct E2 as [-> _].
  exists s1. split; [| split; [exact E1 |]].
  { pose proof (pr_verify_nested w v m s) as P. rewrite E1 in P. exact P. }
  destruct (m_inner m) as [| i [| j l]] eqn:Ei; [minv | |].
  - apply process_added_ok in E. destruct E as (i' & Hi & Ha & L). eapply NO_added; eauto.
  - unfold process_batched in E.
    apply bindM_ok in E. destruct E as ([] & s2 & E2 & E). apply lift_ok in E2. destruct E2 as [-> Hb].
    apply bindM_ok in E. destruct E as (rs & s2 & E2 & E).
    apply bindM_ok in E. destruct E as (tx & s3 & E3 & E). apply octets_ok in E3. destruct E3 as [-> Htx].
    apply bindM_ok in E. destruct E as (sn & s3 & E3 & E). apply octets_ok in E3. destruct E3 as [-> Hsn].
    apply protect_ok in E. destruct E as (-> & -> & _).
    rewrite Ei in E2.
    eapply NO_batch; eauto; [rewrite Ei; cbn; lia | rewrite Ei; exact E2].
Qed.

(** *** Uniqueness of granted and confirmed transaction ids *)
Definition own_of (r : resp) (own : resp -> list bytes) : list bytes := own r.

Lemma pcr_reply_fresh v q must s s' r :
  process_cert_request w v q must s = (s', ROk r) ->
  r_inner r = [] /\ fresh s_ids s s' (own_grant r) /\ own_confirmation r = [].
Proof.
  intros E. pose proof (steps_grows s_ids v q s s' grows_ids) as G.
  assert (St : steps w v q s s'). { pose proof (pr_process_cert_request w v q must s) as P. rewrite E in P. exact P. }
  specialize (G St).
  apply pcr_ok in E. destruct E as (_ & Hb & [(Hok & (e & Hr) & Hbd) | Acc]).
  - apply reply_to_ok in Hr. destruct Hr as (_ & t & n & _ & _ & Hr).
    assert (r_inner r = []) by (rewrite Hr; reflexivity). split; [assumption |].
    unfold own_grant, own_confirmation. rewrite Hok, !Bool.andb_false_r. split; [now apply fresh_nil | reflexivity].
  - apply pcr_accepts_facts in Acc.
    destruct Acc as (certs & enc & tx & sn & Htx & Hsn & Hrtx & Hrn & _ & Hok & Hbd & Hc & Hin & _ & _ & Hni & Hids).
    split; [exact Hin |]. unfold own_grant, own_confirmation. rewrite Hbd, Hok, Hrtx.
    rewrite (resp_body_cert_rep _ Hb). cbn [andb]. split; [now apply fresh_one |].
    destruct (m_body q); try discriminate; reflexivity.
Qed.

Lemma conf_reply_fresh v q s s' r :
  process_cert_conf w v q s = (s', ROk r) ->
  r_inner r = [] /\ own_grant r = [] /\ fresh s_confirmed s s' (own_confirmation r) /\ incl (s_ids s) (s_ids s').
Proof.
  intros E. apply cert_conf_ok in E.
  destruct E as (tx & req & r0 & c & cs & Htx & Hni & _ & _ & _ & _ & _ & _ & Hrep & Hcf & _ & _ & _ & Hids & _).
  apply reply_to_ok in Hrep. destruct Hrep as (_ & t & n & Ht & _ & ->). cbn.
  split; [reflexivity |]. split; [reflexivity |]. rewrite Hids. split; [| apply incl_refl].
  rewrite Htx in Ht. injection Ht as ->. now apply fresh_one.
Qed.

Lemma grants_leaf r : r_inner r = [] -> grants r = own_grant r.
Proof. destruct r; cbn. intros ->. cbn. apply app_nil_r. Qed.
Lemma confirmations_leaf r : r_inner r = [] -> confirmations r = own_confirmation r.
Proof. destruct r; cbn. intros ->. cbn. apply app_nil_r. Qed.

Definition good (s s' : ca) (r : resp) : Prop :=
  fresh s_ids s s' (grants r) /\ fresh s_confirmed s s' (confirmations r).

Lemma leaf_good v q s s' r : leaf v q s s' r -> good s s' r.
Proof.
  intros (s1 & St & [(must & E) | [Hb E]]).
  - assert (St2 : steps w v q s1 s'). { pose proof (pr_process_cert_request w v q must s1) as P. rewrite E in P. exact P. }
    apply pcr_reply_fresh in E. destruct E as (Hi & F & N). split.
    + rewrite grants_leaf by exact Hi. eapply fresh_before; [| exact F]. eapply steps_grows; eauto using grows_ids.
    + rewrite confirmations_leaf, N by exact Hi. apply fresh_nil.
      eapply incl_tran; eapply steps_grows; eauto using grows_confirmed.
  - apply conf_reply_fresh in E. destruct E as (Hi & G & F & I). split.
    + rewrite grants_leaf, G by exact Hi. apply fresh_nil. eapply incl_tran; [| exact I].
      eapply steps_grows; eauto using grows_ids.
    + rewrite confirmations_leaf by exact Hi. eapply fresh_before; [| exact F].
      eapply steps_grows; eauto using grows_confirmed.
Qed.

Lemma batch_loop_good v es : forall s s' rs,
  batch_loop w v es s = (s', ROk rs) ->
  fresh s_ids s s' (flat_map grants rs) /\ fresh s_confirmed s s' (flat_map confirmations rs).
Proof.
  induction es as [| e es IH]; intros s s' rs E; cbn [batch_loop] in E.
  - minv. split; apply fresh_refl.
  - apply bindM_ok in E. destruct E as (r & s1 & E1 & E).
    apply bindM_ok in E. destruct E as (rs' & s2 & E2 & E). minv.
    apply IH in E2. destruct E2 as [G2 C2].
    assert (good s s1 r) as [G1 C1].
    { apply batch_entry_ok in E1. destruct E1 as [(_ & i & _ & _ & L) | [_ L]]; eapply leaf_good; eauto. }
    split; cbn [flat_map]; eapply fresh_app; eauto.
Qed.

Lemma nested_good v m s s' r : nested_ok v m s s' r -> good s s' r.
Proof.
  intros [i _ _ L | tx sn rs _ _ E _ _ ->].
  - eapply leaf_good; eauto.
  - apply batch_loop_good in E. exact E.
Qed.

Lemma good_silent s s' r :
  r_inner r = [] -> own_grant r = [] -> own_confirmation r = [] ->
  incl (s_ids s) (s_ids s') -> incl (s_confirmed s) (s_confirmed s') -> good s s' r.
Proof.
  intros Hi G C I1 I2. split.
  - rewrite grants_leaf, G by exact Hi. now apply fresh_nil.
  - rewrite confirmations_leaf, C by exact Hi. now apply fresh_nil.
Qed.

Lemma rp_catch_ok v m p s s' r :
  rp_catch v m p s = (s', ROk r) ->
  p s = (s', ROk r) \/ (exists e x, p s = (s', RErr e x) /\ exists e', rp_error v m e' s' = (s', ROk r)).
Proof.
  unfold rp_catch. intros E. apply catch_ok in E. destruct E as [E | (s1 & e & x & q & E1 & Eq & E2)]; [now left |].
  right. assert (X : exists e', q = rp_error v m e'). { destruct e; cbn in Eq; inversion Eq; eauto. }
  destruct X as (e' & ->). assert (s' = s1) by (eapply pure_state; [apply pure_rp_error | exact E2]). subst.
  exists e, x. split; [exact E1 |]. exists e'. exact E2.
Qed.

Lemma rr_reply v m s s' r :
  process_rr w v m s = (s', ROk r) -> exists ok e, reply_to v m B_rp ok e [] s' = (s', ROk r).
Proof.
  unfold process_rr. intros E.
  apply bindM_ok in E. destruct E as (s0 & s0' & E0 & E). apply get_ok in E0. destruct E0 as [-> ->].
  apply bindM_ok in E. destruct E as (tx & s1 & E1 & E). cbv zeta in E.
  apply rp_catch_ok in E. destruct E as [E | (e & x & _ & e' & E)]; [| eauto].
  apply bindM_ok in E. destruct E as ([] & s2 & E2 & E). apply lift_ok in E2. destruct E2 as [-> _].
  apply bindM_ok in E. destruct E as ([] & s2 & E2 & E). apply lift_ok in E2. destruct E2 as [-> _].
  destruct (m_extra m) as [| c ?]; [minv |]. destruct (m_rr m) as [| d ?]; [minv |].
  apply bindM_ok in E. destruct E as (rs & s2 & E2 & E). apply lift_ok in E2. destruct E2 as [-> _].
  destruct (is_revoked w s c && negb (is_remove rs)); [minv |].
  apply bindM_ok in E. destruct E as ([] & s2 & E2 & E). apply lift_ok in E2. destruct E2 as [-> _].
  destruct (is_remove rs && is_revoked w s c).
  - unfold self_revive in E. apply rp_catch_ok in E. destruct E as [E | (e & x & _ & e' & E)]; [| eauto].
    apply bindM_ok in E. destruct E as (s3 & s3' & E0 & E). apply get_ok in E0. destruct E0 as [-> ->].
    destruct (get_cert _ _ _); [| minv].
    apply bindM_ok in E. destruct E as (o & s2 & E2 & E). apply lift_ok in E2. destruct E2 as [-> _].
    destruct o.
    + apply bindM_ok in E. destruct E as ([] & s2 & E2 & E).
      assert (s' = s2) by (eapply pure_state; [apply pure_reply_to | exact E]). subst. eauto.
    + assert (s' = s1) by (eapply pure_state; [apply pure_reply_to | exact E]). subst. eauto.
  - apply bindM_ok in E. destruct E as (o & s2 & E2 & E). apply lift_ok in E2. destruct E2 as [-> _].
    destruct o as [[? ?] |].
    + apply bindM_ok in E. destruct E as ([] & s2 & E2 & E).
      assert (s' = s2) by (eapply pure_state; [apply pure_reply_to | exact E]). subst. eauto.
    + assert (s' = s1) by (eapply pure_state; [apply pure_reply_to | exact E]). subst. eauto.
Qed.

Lemma genm_reply v m s s' r :
  process_genm w v m s = (s', ROk r) -> exists s1, reply_to v m B_genp true None [] s1 = (s1, ROk r).
Proof.
  unfold process_genm. intros E. destruct (m_genm m); [minv | |].
  - apply bindM_ok in E. destruct E as ([] & s1 & E1 & E).
    destruct (m_alg m); [minv |]. destruct (m_extra m); [minv |].
    apply bindM_ok in E. destruct E as (ss & s2 & E2 & E).
    apply bindM_ok in E. destruct E as (r' & s3 & E3 & E).
    assert (s3 = s2) by (eapply pure_state; [apply pure_reply_to | exact E3]). subst.
    exists s2. minv. exact E3.
  - apply bindM_ok in E. destruct E as ([] & s1 & E1 & E).
    apply bindM_ok in E. destruct E as (ss & s2 & E2 & E).
    assert (s' = s2) by (eapply pure_state; [apply pure_reply_to | exact E]). subst. eauto.
Qed.

Lemma challenge_reply v m s s' r :
  process_challenge v m s = (s', ROk r) -> exists s1, reply_to v m B_popdecc true None [] s1 = (s1, ROk r).
Proof.
  unfold process_challenge. intros E.
  apply bindM_ok in E. destruct E as (n & s1 & E1 & E).
  apply bindM_ok in E. destruct E as (tx & s2 & E2 & E).
  destruct (m_reqs m); [minv |].
  apply bindM_ok in E. destruct E as (r' & s3 & E3 & E).
  assert (s3 = s2) by (eapply pure_state; [apply pure_reply_to | exact E3]). subst.
  exists s2. minv. exact E3.
Qed.

Definition flow_resp (fl : flow) : resp := match fl with Done r | Fall r => r end.

Lemma good_before s s1 s2 r : incl (s_ids s) (s_ids s1) -> incl (s_confirmed s) (s_confirmed s1) ->
  good s1 s2 r -> good s s2 r.
Proof. intros A B [G C]. split; eapply fresh_before; eauto. Qed.
Lemma good_after s s1 s2 r : incl (s_ids s1) (s_ids s2) -> incl (s_confirmed s1) (s_confirmed s2) ->
  good s s1 r -> good s s2 r.
Proof. intros A B [G C]. split; eapply fresh_after; eauto. Qed.
Lemma steps_good v q s s1 s2 r : steps w v q s s1 -> good s1 s2 r -> good s s2 r.
Proof. intros St. apply good_before; eapply steps_grows; eauto using grows_ids, grows_confirmed. Qed.

Lemma reply_silent v m b ok e s0 s s' r :
  reply_to v m b ok e [] s0 = (s0, ROk r) -> is_cert_rep b && ok = false -> body_eqb b B_pkiconf && ok = false ->
  incl (s_ids s) (s_ids s') -> incl (s_confirmed s) (s_confirmed s') -> good s s' r.
Proof.
  intros Hr Hb1 Hb2 I1 I2. apply reply_to_ok in Hr. destruct Hr as (_ & t & n & _ & _ & ->).
  apply good_silent; auto; unfold own_grant, own_confirmation; cbn [r_body r_ok]; [rewrite Hb1 | rewrite Hb2]; reflexivity.
Qed.

Lemma dispatched_grows v m s s' fl : dispatch w v m s = (s', ROk fl) ->
  incl (s_ids s) (s_ids s') /\ incl (s_confirmed s) (s_confirmed s').
Proof.
  intros E. pose proof (pr_dispatch w v m s) as T. rewrite E in T. cbn [fst] in T.
  split; eapply tree_grows; eauto using grows_ids, grows_confirmed.
Qed.

Lemma dispatch_good v m s s' fl :
  dispatch w v m s = (s', ROk fl) -> m_body m <> B_popdecr -> good s s' (flow_resp fl).
Proof.
  intros E Hnp. pose proof (dispatched_grows _ _ _ _ _ E) as [GI GC]. apply dispatch_ok in E.
  destruct E as [r0 Hb Hc E0 | r0 Hb E0 | r0 Hb E0 | s2 s3 r0 Hb E1 E2 E3 | r0 Hb E0 _ | e r0 Hb He _ _ E0 | r0 Hb E0 | r0 Hb E0 _];
    cbn [flow_resp].
  - apply challenge_reply in E0. destruct E0 as (s2 & E0). eapply reply_silent; eauto.
  - contradiction.
  - apply process_nested_ok in E0. destruct E0 as (s2 & St & _ & N). apply nested_good in N.
    eapply steps_good; eauto.
  - eapply steps_good; [| eapply leaf_good with (q := m)].
    + pose proof (pr_validate_protection w v m true s) as P. rewrite E1 in P. exact P.
    + exists s3. split; [| left; eauto].
      pose proof (pr_stfl_add_msg w v m s2) as P. rewrite E2 in P. exact P.
  - apply rr_reply in E0. destruct E0 as (ok & e & E0). eapply reply_silent; eauto.
  - unfold rp_error in E0. eapply reply_silent; eauto.
  - eapply leaf_good with (q := m) (v := v). exists s. split; [apply rt_refl | right; auto].
  - apply genm_reply in E0. destruct E0 as (s2 & E0). eapply reply_silent; eauto.
Qed.

Lemma handle_steps v m s s' fl : handle w v m s = (s', ROk fl) ->
  exists s1, steps w v m s s1 /\ pre_ok w v m s s1 /\ dispatch w v m s1 = (s', ROk fl).
Proof.
  intros E. apply handle_ok in E. destruct E as (s1 & Hpre & E). exists s1. split; [| auto].
  destruct Hpre as (_ & Hv & _). destruct (body_in (m_body m) [B_rr; B_genm]).
  - subst; apply rt_refl.
  - pose proof (pr_verify_protection w v m s) as P. rewrite Hv in P. exact P.
Qed.

Lemma kem_update_steps v m s s' x : kem_update w m s = (s', x) -> steps w v m s s'.
Proof. intros E. pose proof (pr_kem_update w v m s) as P. rewrite E in P. exact P. Qed.

Lemma error_good v m e x s s' r : is_error_reply v m e x r ->
  incl (s_ids s) (s_ids s') -> incl (s_confirmed s) (s_confirmed s') -> good s s' r.
Proof.
  intros (Hok & Hi & _) I1 I2. apply good_silent; auto; unfold own_grant, own_confirmation; rewrite Hok, Bool.andb_false_r; reflexivity.
Qed.

Lemma step_good s m v s' r :
  step w s (m, v) = (s', Reply r) -> m_body m <> B_popdecr -> good s s' r.
Proof.
  intros E Hnp. pose proof (step_tree w s m v) as T. rewrite E in T. cbn [fst] in T.
  apply step_reply in E. apply process_request_ok in E.
  destruct E as [E | [(s1 & E & Ek) | (e & x & E & Hr)]].
  - apply handle_steps in E. destruct E as (s1 & St & _ & E). eapply steps_good; [exact St |].
    change r with (flow_resp (Done r)). eapply dispatch_good; eauto.
  - apply handle_steps in E. destruct E as (s2 & St & _ & E). eapply steps_good; [exact St |].
    apply dispatch_good in E; [| exact Hnp]. apply (kem_update_steps v) in Ek.
    eapply good_after; [| | exact E]; eapply steps_grows; eauto using grows_ids, grows_confirmed.
  - eapply error_good; eauto; eapply tree_grows; eauto using grows_ids, grows_confirmed.
Qed.

Lemma log_fresh h : forall s,
  Forall (fun x => m_body (fst x) <> B_popdecr) h ->
  fresh s_ids s (run w s h) (flat_map (fun x => in_reply grants (snd x)) (log w s h)) /\
  fresh s_confirmed s (run w s h) (flat_map (fun x => in_reply confirmations (snd x)) (log w s h)).
Proof.
  induction h as [| [m v] h IH]; intros s Hh; cbn [log flat_map run fold_left].
  - split; apply fresh_refl.
  - inversion Hh as [| ? ? H1 H2]; subst. cbn [fst] in *.
    specialize (IH (fst (step w s (m, v))) H2). destruct IH as [I1 I2].
    destruct (step w s (m, v)) as [s' o] eqn:E. cbn [fst snd] in *.
    assert (G : fresh s_ids s s' (in_reply grants o) /\ fresh s_confirmed s s' (in_reply confirmations o)).
    { destruct o as [r |].
      - apply step_good in E; auto.
      - cbn. pose proof (step_tree w s m v) as T. rewrite E in T. cbn [fst] in T.
        split; apply fresh_nil; eapply tree_grows; eauto using grows_ids, grows_confirmed. }
    destruct G. split; eapply fresh_app; eauto.
Qed.

(** confirmations never come from a [popdecr] *)
Lemma popdecr_confirms s m v s' r :
  step w s (m, v) = (s', Reply r) -> m_body m = B_popdecr -> confirmations r = [].
Proof.
  intros E Hp. apply step_reply in E. apply process_request_ok in E.
  assert (A : forall s1 fl, handle w v m s = (s1, ROk fl) -> confirmations (flow_resp fl) = []).
  { intros s1 fl Eh. apply handle_ok in Eh. destruct Eh as (s2 & _ & Eh). apply dispatch_ok in Eh.
    destruct Eh as [r0 [Hb | Hb] Hc E0 | r0 Hb E0 | r0 Hb E0 | s3 s4 r0 Hb E1 E2 E3 | r0 Hb E0 _ | e r0 Hb He _ _ E0 | r0 Hb E0 | r0 Hb E0 _];
      rewrite Hp in Hb; try discriminate. cbn [flow_resp].
    unfold process_popdecr in E0.
    apply bindM_ok in E0. destruct E0 as (tx & s3 & _ & E0).
    apply bindM_ok in E0. destruct E0 as ([b cs] & s4 & _ & E0). cbn [fst snd] in E0.
    destruct b as [b |]; [| minv]. destruct b; try (minv; fail).
    apply bindM_ok in E0. destruct E0 as ([] & s5 & _ & E0).
    apply bindM_ok in E0. destruct E0 as (r1 & s6 & E1 & E0).
    apply reply_to_ok in E1. destruct E1 as (_ & t & n & _ & _ & ->).
    apply bindM_ok in E0. destruct E0 as ([] & s7 & _ & E0). minv. reflexivity. }
  destruct E as [E | [(s1 & E & Ek) | (e & x & E & Hr)]].
  - apply (A _ _ E).
  - apply (A _ _ E).
  - destruct Hr as (Hok & Hi & _). rewrite confirmations_leaf by exact Hi.
    unfold own_confirmation. rewrite Hok, Bool.andb_false_r. reflexivity.
Qed.

Lemma log_fresh_confirmed h : forall s,
  fresh s_confirmed s (run w s h) (flat_map (fun x => in_reply confirmations (snd x)) (log w s h)).
Proof.
  induction h as [| [m v] h IH]; intros s; cbn [log flat_map run fold_left]; [apply fresh_refl |].
  specialize (IH (fst (step w s (m, v)))). pose proof (step_tree w s m v) as T.
  destruct (step w s (m, v)) as [s' o] eqn:E. cbn [fst snd] in *.
  eapply fresh_app; [| exact IH]. apply (tree_grows s_confirmed) in T; [| apply grows_confirmed].
  destruct o as [r |]; [| now apply fresh_nil]. cbn [in_reply].
  destruct (body_eqb (m_body m) B_popdecr) eqn:Eb.
  - apply body_eqb_eq in Eb. rewrite (popdecr_confirms _ _ _ _ _ E Eb). now apply fresh_nil.
  - assert (N : m_body m <> B_popdecr). { intros X. rewrite X in Eb. discriminate. }
    apply (step_good _ _ _ _ _ E N).
Qed.
End Tx.
