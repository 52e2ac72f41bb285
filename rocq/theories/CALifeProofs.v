(** Transaction ids as an abstract data type, revocation requests against their
    specification, and statements about states reached from start-up
    (C11, C12, C13, C16, C17). *)
From Verif Require Export CAAuthProofs.
From Verif Require Import PreludeFacts CADbProofs.
Local Open Scope Z_scope.

(** *** C11: the set of ids in use *)
Lemma tx_take s o s' : tx_takes o = true -> tx_call s o = (s', ROk tt) ->
  exists tx, tx_of o = Some tx /\ ~ In tx (s_ids s) /\ s_ids s' = s_ids s ++ [tx].
Proof.
  destruct o as [m certs | tx | tx]; cbn [tx_takes tx_call tx_of]; intros Ht E; [| | discriminate].
  - unfold store_tx, bindM, octets, get, modify, raise, ret in E. destruct (m_tx m) as [tx |]; [| discriminate].
    exists tx. destruct (mem tx (s_ids s)) eqn:Em; [discriminate |]. injection E as <-.
    apply mem_false in Em. repeat split; auto.
  - unfold add_tx_id, bindM, get, modify, raise in E. exists tx.
    destruct (mem tx (s_ids s)) eqn:Em; [discriminate |]. injection E as <-. apply mem_false in Em. auto.
Qed.

Lemma tx_in_use s o tx : tx_takes o = true -> tx_of o = Some tx -> In tx (s_ids s) ->
  exists m, tx_call s o = (s, RErr ETransactionIdInUse m).
Proof.
  intros Ht Ho Hi. apply mem_In in Hi. destruct o as [m certs | t | t]; cbn in Ht, Ho |- *; [| | discriminate].
  - unfold store_tx, bindM, octets, get. rewrite Ho. cbn. rewrite Hi. eexists. reflexivity.
  - injection Ho as ->. unfold add_tx_id, bindM, get. rewrite Hi. eexists. reflexivity.
Qed.

Lemma tx_unused s o tx : tx_takes o = true -> tx_of o = Some tx -> ~ In tx (s_ids s) ->
  exists s', tx_call s o = (s', ROk tt).
Proof.
  intros Ht Ho Hi. apply mem_false in Hi. destruct o as [m certs | t | t]; cbn in Ht, Ho |- *; [| | discriminate].
  - unfold store_tx, bindM, octets, get. rewrite Ho. cbn. rewrite Hi. eexists. reflexivity.
  - injection Ho as ->. unfold add_tx_id, bindM, get. rewrite Hi. eexists. reflexivity.
Qed.

Lemma tx_rejected s o s' e m : tx_call s o = (s', RErr e m) -> s' = s.
Proof.
  destruct o as [q certs | tx | tx]; cbn; intros E.
  - unfold store_tx, bindM, octets, get, modify, raise, ret in E. destruct (m_tx q); [| now inversion E].
    destruct (mem b (s_ids s)); now inversion E.
  - unfold add_tx_id, bindM, get, modify, raise in E. destruct (mem tx (s_ids s)); now inversion E.
  - unfold remove_tx_id, bindM, get, modify, raise in E. destruct (CAModel.remove_first tx (s_ids s)); now inversion E.
Qed.

Lemma remove_first_split x l : forall l', CAModel.remove_first x l = Some l' ->
  exists a b, l = a ++ x :: b /\ l' = a ++ b /\ ~ In x a.
Proof.
  induction l as [| y l IH]; intros l' E; cbn in E; [discriminate |].
  destruct (bytes_eqb x y) eqn:Ex.
  - injection E as <-. apply bytes_eqb_eq in Ex. subst y. exists [], l. auto.
  - destruct (CAModel.remove_first x l) as [l1 |]; [| discriminate]. injection E as <-.
    destruct (IH l1 eq_refl) as (a & b & -> & -> & N). exists (y :: a), b. repeat split.
    intros [-> | Hi]; [| contradiction]. rewrite bytes_eqb_refl in Ex. discriminate.
Qed.
Lemma remove_first_in x l : In x l -> exists l', CAModel.remove_first x l = Some l'.
Proof.
  induction l as [| y l IH]; [intros [] |]. intros Hi. cbn. destruct (bytes_eqb x y) eqn:Ex; [eauto |].
  destruct Hi as [-> | Hi]; [rewrite bytes_eqb_refl in Ex; discriminate |].
  destruct (IH Hi) as (l' & ->). eexists. reflexivity.
Qed.

Lemma tx_call_keeps s o tx : In tx (s_ids s) -> o <> TxRemove tx -> In tx (s_ids (fst (tx_call s o))).
Proof.
  intros Hi Hn. destruct (tx_call s o) as [s' [[] | e m]] eqn:E; cbn [fst]; [| apply tx_rejected in E; now subst].
  destruct (tx_takes o) eqn:Ht.
  - apply tx_take in E; auto. destruct E as (t & _ & _ & ->). apply in_or_app. auto.
  - destruct o as [| | t]; try discriminate. cbn in E. unfold remove_tx_id, bindM, get, modify, raise in E.
    destruct (CAModel.remove_first t (s_ids s)) as [l |] eqn:Er; [| discriminate]. injection E as <-. cbn.
    apply remove_first_split in Er. destruct Er as (a & b & Hl & -> & _). rewrite Hl in Hi.
    apply in_app_or in Hi. apply in_or_app. destruct Hi as [Hi | [-> | Hi]]; auto. congruence.
Qed.

Lemma tx_run_keeps os tx : ~ In (TxRemove tx) os -> forall s, In tx (s_ids s) -> In tx (s_ids (tx_run s os)).
Proof.
  induction os as [| o os IH]; intros Hn s Hi; cbn; [exact Hi |].
  apply IH; [intros X; apply Hn; now right |]. apply tx_call_keeps; [exact Hi |]. intros ->. apply Hn. now left.
Qed.

Lemma NoDup_app_one {A} (l : list A) x : NoDup l -> ~ In x l -> NoDup (l ++ [x]).
Proof.
  intros N Hn. apply NoDup_rev in N. rewrite <- (rev_involutive (l ++ [x])). apply NoDup_rev. rewrite rev_app_distr. cbn.
  constructor; [rewrite <- in_rev; exact Hn | exact N].
Qed.
Lemma tx_call_nodup s o : NoDup (s_ids s) -> NoDup (s_ids (fst (tx_call s o))).
Proof.
  intros N. destruct (tx_call s o) as [s' [[] | e m]] eqn:E; cbn [fst]; [| apply tx_rejected in E; now subst].
  destruct (tx_takes o) eqn:Ht.
  - apply tx_take in E; auto. destruct E as (t & _ & Hn & ->).
    apply NoDup_app_one; assumption.
  - destruct o as [| | t]; try discriminate. cbn in E. unfold remove_tx_id, bindM, get, modify, raise in E.
    destruct (CAModel.remove_first t (s_ids s)) as [l |] eqn:Er; [| discriminate]. injection E as <-. cbn.
    apply remove_first_split in Er. destruct Er as (a & b & Hl & -> & _). rewrite Hl in N. now apply NoDup_remove_1 in N.
Qed.
Lemma tx_run_nodup os : forall s, NoDup (s_ids s) -> NoDup (s_ids (tx_run s os)).
Proof. induction os as [| o os IH]; intros s N; cbn; [exact N |]. apply IH, tx_call_nodup, N. Qed.

Lemma in_remove_dec tx os : In (TxRemove tx) os \/ ~ In (TxRemove tx) os.
Proof.
  induction os as [| o os IH]; [now right |]. destruct IH as [IH | IH]; [left; now right |].
  destruct o as [m cs | t | t]; try (right; intros [X | X]; [discriminate | contradiction]).
  destruct (bytes_eq_dec t tx) as [-> | N]; [left; now left |]. right. intros [X | X]; [injection X as ->; congruence | contradiction].
Qed.

Lemma tx_reuse s o1 s1 os o2 s2 tx :
  tx_takes o1 = true -> tx_of o1 = Some tx -> tx_call s o1 = (s1, ROk tt) ->
  tx_takes o2 = true -> tx_of o2 = Some tx -> tx_call (tx_run s1 os) o2 = (s2, ROk tt) ->
  In (TxRemove tx) os.
Proof.
  intros T1 O1 E1 T2 O2 E2. apply tx_take in E1; auto. destruct E1 as (t & X & _ & Hs). rewrite O1 in X. injection X as <-.
  apply tx_take in E2; auto. destruct E2 as (t & X & Hn & _). rewrite O2 in X. injection X as <-.
  destruct (in_remove_dec tx os) as [Hi | Hi]; [exact Hi |]. exfalso. apply Hn.
  apply tx_run_keeps; [exact Hi |]. rewrite Hs. apply in_or_app. right. now left.
Qed.

Lemma tx_removed s tx s' : NoDup (s_ids s) -> tx_call s (TxRemove tx) = (s', ROk tt) ->
  In tx (s_ids s) /\ ~ In tx (s_ids s').
Proof.
  intros N E. cbn in E. unfold remove_tx_id, bindM, get, modify, raise in E.
  destruct (CAModel.remove_first tx (s_ids s)) as [l |] eqn:Er; [| discriminate]. injection E as <-. cbn.
  apply remove_first_split in Er. destruct Er as (a & b & Hl & -> & _). rewrite Hl in *.
  split; [apply in_or_app; right; now left |]. now apply NoDup_remove_2 in N.
Qed.

Section Life.
Variable w : world.
Local Notation H := (w_H w).

(** *** C17 *)
Lemma change_in_rev l dig st r u now : forall l', change_in H l dig st r u now = Ok l' ->
  st = REVOKED \/ st = REVIVED ->
  exists e e', get_by_digest l dig = Some e /\ get_by_digest l' dig = Some e' /\ e_state e' = st /\
    e_rev e' = (if state_eqb st REVOKED then r else None) /\
    (st = REVOKED -> e_state e = CONFIRMED \/ e_state e = REVIVED) /\ (st = REVIVED -> e_state e = REVOKED) /\
    map e_cert l' = map e_cert l.
Proof.
  induction l as [| e l IH]; intros l' E Hst; cbn [change_in] in E; [discriminate |].
  unfold get_by_digest. cbn [find]. destruct (bytes_eqb dig (e_digest e)) eqn:Ed.
  - apply bind_ok in E. destruct E as (e' & Ee & E). injection E as <-. exists e, e'.
    cbn [find]. destruct Hst as [-> | ->]; cbn [change_entry] in Ee.
    + destruct (state_eqb (e_state e) REVIVED || state_eqb (e_state e) CONFIRMED) eqn:Es; [| discriminate]. injection Ee as <-.
      cbn. rewrite Ed. repeat split; auto; try discriminate. intros _. destruct (e_state e); try discriminate; auto.
    + destruct (state_eqb (e_state e) REVOKED) eqn:Es; [| discriminate]. injection Ee as <-.
      cbn. rewrite Ed. repeat split; auto; try discriminate. intros _. destruct (e_state e); try discriminate; auto.
  - apply bind_ok in E. destruct E as (l1 & El & E). injection E as <-.
    destruct (IH l1 El Hst) as (x & x' & A & B & C & D & F & G & K). exists x, x'. cbn [find map]. rewrite Ed.
    repeat split; auto. now rewrite K.
Qed.

Lemma revocation_named v m d d' : revocation w v m d d' -> revokes_named w m d d'.
Proof.
  intros (rd & rsn & c & Hm & Hr & Ht & (e0 & He0 & Hc0) & E).
  assert (Hother : forall c', H c' <> H c -> get_cert_state H d' c' = get_cert_state H d c').
  { intros c' N. eapply change_other; eauto. }
  exists rd, rsn, c. repeat (split; [assumption |]).
  split; [apply in_map_iff; eauto |].
  apply change_ok_shape in E. destruct E as (l' & El & -> & _).
  assert (Hrsn : (rsn = R_removeFromCRL /\ is_remove rsn = true) \/ (rsn <> R_removeFromCRL /\ is_remove rsn = false)).
  { destruct rsn; cbn; (left; split; [reflexivity | reflexivity]) || (right; split; [discriminate | reflexivity]). }
  destruct Hrsn as [[Hx Hi] | [Hx Hi]]; rewrite Hi in El; apply change_in_rev in El; auto;
    destruct El as (e & e' & A & B & C & D & F & G & K).
  - left. split; [exact Hx |]. split; [unfold get_cert_state, get_cert; rewrite A; auto |].
    split; [exists e'; cbn in D; rewrite D; unfold get_cert; cbn [db_certs with_certs]; auto |]. split; [exact Hother | exact K].
  - right. split; [exact Hx |]. split; [unfold get_cert_state, get_cert; rewrite A; auto |].
    split; [exists e'; cbn in D; rewrite D; unfold get_cert; cbn [db_certs with_certs]; auto |]. split; [exact Hother | exact K].
Qed.

Lemma rr_effect s m v s' o :
  step w s (m, v) = (s', o) -> m_body m = B_rr ->
  exists k,
    (s' = set_kem s k /\ accepted o = false) \/
    (exists d, revokes_named w m (s_db s) d /\ s' = set_db (set_kem s k) d /\
               forall r, o = Reply r -> r_ok r = true /\ r_body r = B_rp).
Proof.
  intros E Hb. destruct (rr_step w s m v s' o E Hb) as (k & [X | (d & R & X)]); exists k; [now left |].
  right. exists d. split; [now apply revocation_named in R | exact X].
Qed.

(** *** C11, C15: along the life of the CA *)
Lemma grants_nodup h :
  Forall (fun x => m_body (fst x) <> B_popdecr) h ->
  NoDup (flat_map (fun x => in_reply grants (snd x)) (log w ca_init h)).
Proof. intros Hh. apply (log_fresh w h ca_init Hh). Qed.
Lemma confirmations_nodup h :
  NoDup (flat_map (fun x => in_reply confirmations (snd x)) (log w ca_init h)).
Proof. apply (log_fresh_confirmed w h ca_init). Qed.
Lemma sigs_nodup h : c_val_burn (w_cfg w) = true -> NoDup (accepted_sigs w (log w ca_init h)).
Proof. intros Hb. apply (log_sigs w h Hb ca_init). Qed.

(** *** C12 *)
Lemma kem_agreed h m v s' o :
  step w (after w h) (m, v) = (s', o) -> accepted o = true -> has_prot_type w m PT_KEM = true ->
  exists tx m0 v0 q ss, m_tx m = Some tx /\ In (m0, v0) h /\ contains m0 q /\ m_body q = B_genm /\ m_tx q = Some tx /\
    v_ss v0 q = Ok ss /\ v_kem v m ss = Ok tt.
Proof.
  intros E Ha Hk. destruct (kem_authentic w _ _ _ _ _ E Ha Hk) as (tx & k & Ht & Hf & Hv).
  unfold kem_find in Hf. apply find_some in Hf. destruct Hf as [Hi He]. apply bytes_eqb_eq in He. subst tx.
  destruct (kem_inv_after w h k Hi) as (m0 & v0 & q & A & B & C & D & F).
  exists (ke_tx k), m0, v0, q, (ke_ss k). auto 10.
Qed.

(** *** C13 *)
Lemma popdecr_after h m v s' r :
  step w (after w h) (m, v) = (s', Reply r) -> m_body m = B_popdecr -> r_ok r = true ->
  exists tx, m_tx m = Some tx /\ m_popdecr m <> [] /\ NoDup (m_popdecr m) /\
    (forall n, In n (m_popdecr m) -> outstanding (after w h) n tx /\ ~ outstanding s' n tx /\ challenged h n tx) /\
    length (r_certs r) = length (m_popdecr m) /\ r_tx r = Some tx.
Proof.
  intros E Hb Hok. destruct (popdecr_step w _ _ _ _ _ E Hb Hok (chal_keys_after w h)) as (tx & A & B & C & D & F).
  exists tx. repeat (split; [assumption |]). split; [| exact F]. intros n Hn. destruct (D n Hn) as [O O'].
  repeat split; auto. unfold after in O. destruct (run_chal w h n tx ca_init) as [X | X]; auto.
  - constructor.
  - exfalso. apply X. reflexivity.
Qed.
Lemma challenge_once_after h1 m v s' r h2 m2 v2 n tx :
  step w (after w h1) (m, v) = (s', Reply r) -> m_body m = B_popdecr -> r_ok r = true ->
  m_tx m = Some tx -> In n (m_popdecr m) -> ~ challenged h2 n tx ->
  m_body m2 = B_popdecr -> m_tx m2 = Some tx -> In n (m_popdecr m2) ->
  accepted (snd (step w (run w s' h2) (m2, v2))) = false.
Proof. intros. eapply challenge_once; eauto. apply chal_keys_after. Qed.

(** *** C18 *)
Lemma batch_step s m v s' r : step w s (m, v) = (s', Reply r) -> is_batch m ->
  if r_ok r then batch_answered m r else exists q, contains m q /\ answers q r.
Proof.
  intros E Hm. apply step_outcome in E.
  destruct E as [e E Ha Hr | s1 e x E Ed Ha Hr | s1 r0 E Ed Eo | s1 s2 r0 E Ed _ Eo].
  - specialize (Hr r eq_refl). apply error_answers in Hr. destruct Hr as [Hr ->]. exists m. split; [constructor |].
    destruct e; exact Hr.
  - specialize (Hr r eq_refl). apply error_answers in Hr. destruct Hr as [Hr ->].
    destruct e; try (exists m; split; [constructor | exact Hr]).
    apply rb_dispatch in Ed. destruct Ed as (Hc & _). exists x. split; [exact Hc | exact Hr].
  - injection Eo as <-. destruct Hm as [Hb Hl]. apply dispatch_ok in Ed.
    inversion Ed as [r1 [X | X] | | r1 _ E0 | | | | | r1 X]; subst; try congruence.
    apply process_nested_ok in E0. destruct E0 as (s3 & _ & _ & N).
    destruct N as [i Hi _ _ | tx sn rs0 _ Hck Eb Htx Hsn ->]; [rewrite Hi in Hl; cbn in Hl; lia |].
    cbn. repeat (split; [solve [auto] |]). split; [eapply batch_loop_answers; eauto | now apply batch_distinct].
  - destruct Hm as [Hb Hl]. apply dispatch_ok in Ed. inversion Ed; subst; try congruence; rewrite Hb in *; discriminate.
Qed.

Lemma added_step s m v s' r q : step w s (m, v) = (s', Reply r) -> m_body m = B_nested -> m_inner m = [q] -> r_ok r = true ->
  answers q r /\ m_tx q = m_tx m /\ m_snonce q = m_snonce m /\ (is_cert_req (m_body q) = true \/ m_body q = B_certConf).
Proof.
  intros E Hb Hi Hok. apply step_outcome in E.
  destruct E as [e E Ha Hr | s1 e x E Ed Ha Hr | s1 r0 E Ed Eo | s1 s2 r0 E Ed _ Eo]; try (cbn in Ha; congruence).
  - injection Eo as <-. apply dispatch_ok in Ed.
    inversion Ed as [r1 [X | X] | | r1 _ E0 | | | | | r1 X]; subst; try congruence.
    apply process_nested_ok in E0. destruct E0 as (s3 & _ & _ & N).
    destruct N as [i Hi' Ha L | tx sn rs0 Hl _ _ _ _ _]; [| rewrite Hi in Hl; cbn in Hl; lia].
    rewrite Hi in Hi'. injection Hi' as <-. pose proof Ha as Ha'. apply added_ids_in in Ha. destruct Ha as (_ & A & B).
    split; [eapply leaf_answers; eauto |]. split; [exact A |]. split; [exact B |].
    destruct L as (s4 & _ & [(must & L) | [L _]]); [left | now right]. apply pcr_ok in L. apply L.
  - apply dispatch_ok in Ed. inversion Ed; subst; try congruence; rewrite Hb in *; discriminate.
Qed.

(** *** C16: the time rules for a certificate whose update is not yet confirmed *)
Lemma update_entry_of d c e : get_cert H d c = Some e ->
  e_state e = UPDATED \/ e_state e = UPDATED_BUT_NOT_CONFIRMED ->
  get_by_digest (update_entries d) (H c) = Some e.
Proof.
  unfold get_cert, update_entries, get_by_digest. induction (db_certs d) as [| x l IH]; cbn [find filter]; [discriminate |].
  intros G Hs. destruct (bytes_eqb (H c) (e_digest x)) eqn:Ex.
  - injection G as ->. destruct Hs as [-> | ->]; cbn [state_eqb orb find]; rewrite Ex; reflexivity.
  - destruct (state_eqb (e_state x) UPDATED || state_eqb (e_state x) UPDATED_BUT_NOT_CONFIRMED); cbn [find]; [rewrite Ex |]; now apply IH.
Qed.

Lemma not_allowed_pending v m s c e t :
  get_cert H (s_db s) c = Some e -> e_state e = UPDATED_BUT_NOT_CONFIRMED -> e_upd_date e = Some t ->
  not_allowed w v m c s =
    match m_body m with
    | B_ir | B_cr | B_p10cr | B_rr => Err EBadRequest
    | B_kur => if v_now v - t <? db_timeout (s_db s) then Err EBadRequest else Ok tt
    | B_certConf => if db_timeout (s_db s) <? v_now v - t then Err EBadRequest else Ok tt
    | _ => if db_timeout (s_db s) <? v_now v - t then Ok tt else Err ECertRevoked
    end.
Proof.
  intros G Hs Ht. unfold not_allowed, is_revoked, get_cert_state. rewrite G, Hs.
  pose proof (update_entry_of _ _ _ G (or_intror Hs)) as U.
  destruct (m_body m) eqn:Hb; cbn [body_eqb negb state_eqb]; try reflexivity;
    unfold validate_is_updated, for_cert_conf, for_kur, is_updated; rewrite U, Hs;
    cbn [state_eqb body_eqb negb andb body_in existsb orb]; rewrite ?Ht;
    try reflexivity; destruct (db_timeout (s_db s) <? v_now v - t); reflexivity.
Qed.
End Life.
