(** Properties C11-C19 and C47-C49: what the Mock CA does with the requests it
    receives.  [w] fixes the functions left abstract and the configuration; a history
    [h] lists all requests with the outcome of everything that is not modelled;
    [after w h] is the state after [h] since start-up and [log w ca_init h] what the
    clients saw. *)
From Verif Require Import PreludeFacts CADbSpec CADbProofs CASpec CALifeProofs CAWitness.
Local Open Scope Z_scope.

(** ** C11 *)
Theorem C11_take_only_unused : forall s o s',
  tx_takes o = true -> tx_call s o = (s', ROk tt) ->
  exists tx, tx_of o = Some tx /\ ~ In tx (s_ids s) /\ s_ids s' = s_ids s ++ [tx].
Proof. exact tx_take. Qed.
Theorem C11_unused_accepted : forall s o tx,
  tx_takes o = true -> tx_of o = Some tx -> ~ In tx (s_ids s) -> exists s', tx_call s o = (s', ROk tt).
Proof. exact tx_unused. Qed.
Theorem C11_in_use_rejected : forall s o tx,
  tx_takes o = true -> tx_of o = Some tx -> In tx (s_ids s) ->
  exists m, tx_call s o = (s, RErr ETransactionIdInUse m).
Proof. exact tx_in_use. Qed.
Theorem C11_rejected_unchanged : forall s o s' e m, tx_call s o = (s', RErr e m) -> s' = s.
Proof. exact tx_rejected. Qed.
Theorem C11_reuse_needs_removal : forall s o1 s1 os o2 s2 tx,
  tx_takes o1 = true -> tx_of o1 = Some tx -> tx_call s o1 = (s1, ROk tt) ->
  tx_takes o2 = true -> tx_of o2 = Some tx -> tx_call (tx_run s1 os) o2 = (s2, ROk tt) ->
  In (TxRemove tx) os.
Proof. exact tx_reuse. Qed.
Theorem C11_removed_is_free : forall os tx s',
  tx_call (tx_run ca_init os) (TxRemove tx) = (s', ROk tt) ->
  In tx (s_ids (tx_run ca_init os)) /\ ~ In tx (s_ids s').
Proof. intros os tx s'. apply tx_removed, tx_run_nodup. constructor. Qed.
Example C11_ex :
  s_ids (tx_run ca_init [TxAdd [1]; TxStore (mk B_ir 2) [cA]; TxAdd [1]; TxRemove [1]; TxAdd [1]]) = [b16 2; [1]] /\
  snd (tx_call (tx_run ca_init [TxAdd [1]; TxAdd [2]]) (TxAdd [1])) = RErr ETransactionIdInUse no_msg.
Proof. split; reflexivity. Qed.

(** Seen by the clients: no transaction id is granted certificates twice ... *)
Theorem C11_granted_once_partial : forall w h,
  Forall (fun x => m_body (fst x) <> B_popdecr) h ->
  NoDup (flat_map (fun x => in_reply grants (snd x)) (log w ca_init h)).
Proof. exact grants_nodup. Qed.
Example C11_granted_once_ex :
  flat_map (fun x => in_reply grants (snd x)) (log w0 ca_init (with_v0 [ir 1 cA; ir 2 cB; ir 1 cC; conf 1 CS_absent cA;
    nested 3 cA [ir 4 cC; ir 5 [7; 17; 27; 0]]])) = [b16 1; b16 2; b16 4; b16 5].
Proof. vm_compute. reflexivity. Qed.
(** ... except by answering a challenge: such a transaction is not reserved. *)
Theorem C11_challenge_not_reserved_refuted : exists w h,
  ~ NoDup (flat_map (fun x => in_reply grants (snd x)) (log w ca_init h)).
Proof.
  exists w0, (with_v0 [reqs false true PopoAbsent [cA] (mk B_ir 1); popdecr 1 [42]; ir 1 cB]).
  vm_compute. intros N. inversion N as [| ? ? X _]. apply X. now left.
Qed.

(** ** C12 *)
(** No secret, or one that was used: the message is rejected and changes nothing. *)
Theorem C12_unusable_secret_rejected : forall w s m v tx,
  has_prot_type w m PT_KEM = true -> m_tx m = Some tx ->
  (kem_find (s_kem s) tx = None \/
   (m_body m <> B_certConf /\ m_body m <> B_rr /\ exists k, kem_find (s_kem s) tx = Some k /\ ke_used k = true)) ->
  fst (step w s (m, v)) = s /\ accepted (snd (step w s (m, v))) = false.
Proof.
  intros w s m v tx Hk Ht Hd. apply kem_rejected; [exact Hk | | intros Hr; exists tx; destruct Hd as [Hd | (_ & N & _)]; [auto | contradiction]].
  exists tx. split; [exact Ht |]. destruct Hd as [Hd | (N & _ & X)]; auto.
Qed.
Theorem C12_secret_used_once_partial : forall w s m1 v1 h m2 v2 tx s1 o1,
  step w s (m1, v1) = (s1, o1) -> accepted o1 = true -> spends m1 = true ->
  has_prot_type w m1 PT_KEM = true -> m_tx m1 = Some tx ->
  has_prot_type w m2 PT_KEM = true -> m_tx m2 = Some tx -> m_body m2 <> B_certConf -> m_body m2 <> B_rr ->
  let s2 := run w s1 h in
  fst (step w s2 (m2, v2)) = s2 /\ accepted (snd (step w s2 (m2, v2))) = false.
Proof. exact kem_once. Qed.
(** An accepted KEM-protected message is authenticated with a secret agreed before, in
    a genm exchange of the same transaction. *)
Theorem C12_secret_was_agreed : forall w h m v s' o,
  step w (after w h) (m, v) = (s', o) -> accepted o = true -> has_prot_type w m PT_KEM = true ->
  exists tx m0 v0 q ss, m_tx m = Some tx /\ In (m0, v0) h /\ contains m0 q /\ m_body q = B_genm /\ m_tx q = Some tx /\
    v_ss v0 q = Ok ss /\ v_kem v m ss = Ok tt.
Proof. exact kem_agreed. Qed.
Example C12_ex :
  answers_to [ir_implicit 1 cA; prot 2 0 [cA] (ir 2 cB); kem_setup 2 cA; prot 2 0 [cA] (ir 2 cB);
              prot 2 0 [cA] (ir 2 cC); nonces 50 (Some 99) (prot 2 0 [cA] (conf 2 CS_absent cB))]
  = [(B_ip, true); (B_error, false); (B_genp, true); (B_ip, true); (B_error, false); (B_pkiconf, true)].
Proof. vm_compute. reflexivity. Qed.
(** Deviations: a revocation request may use a spent secret; an accepted request for a
    challenge does not spend it; a rejected request spends it. *)
Definition kem_start : list msg := [ir_implicit 1 cA; ir_implicit 9 cB; kem_setup 2 cA].
Theorem C12_rr_replays_secret_refuted : exists w h m1 m2 v,
  has_prot_type w m1 PT_KEM = true /\ has_prot_type w m2 PT_KEM = true /\ m_tx m1 = m_tx m2 /\
  m_body m1 = B_ir /\ m_body m2 = B_rr /\
  accepted (snd (step w (after w h) (m1, v))) = true /\
  accepted (snd (step w (after w (h ++ [(m1, v)])) (m2, v))) = true.
Proof.
  exists w0, (with_v0 kem_start), (prot 2 0 [cA] (ir 2 cC)), (prot 2 0 [cA] (revoke 2 cA 22 R_keyCompromise)), v0.
  repeat split; vm_compute; reflexivity.
Qed.
Theorem C12_challenge_keeps_secret_refuted : exists w h m1 m2 v,
  has_prot_type w m1 PT_KEM = true /\ has_prot_type w m2 PT_KEM = true /\ m_tx m1 = m_tx m2 /\
  m_body m1 = B_ir /\ m_body m2 = B_ir /\
  accepted (snd (step w (after w h) (m1, v))) = true /\
  accepted (snd (step w (after w (h ++ [(m1, v)])) (m2, v))) = true.
Proof.
  exists w0, (with_v0 kem_start), (prot 2 0 [cA] (reqs false true PopoAbsent [cC] (mk B_ir 2))), (prot 2 0 [cA] (ir 2 cC)), v0.
  repeat split; vm_compute; reflexivity.
Qed.
Theorem C12_rejected_request_spends_secret_refuted : exists w h m1 m2 v,
  has_prot_type w m1 PT_KEM = true /\ has_prot_type w m2 PT_KEM = true /\ m_tx m1 = m_tx m2 /\
  accepted (snd (step w (after w h) (m1, v))) = false /\
  accepted (snd (step w (after w h) (m2, v))) = true /\
  accepted (snd (step w (after w (h ++ [(m1, v)])) (m2, v))) = false.
Proof.
  exists w0, (with_v0 kem_start), (prot 2 0 [cA] (ir 2 cA)), (prot 2 0 [cA] (ir 2 cC)), v0.
  repeat split; vm_compute; reflexivity.
Qed.

(** ** C13 *)
Theorem C13_answer_matches_challenge : forall w h m v s' r,
  step w (after w h) (m, v) = (s', Reply r) -> m_body m = B_popdecr -> r_ok r = true ->
  exists tx, m_tx m = Some tx /\ m_popdecr m <> [] /\ NoDup (m_popdecr m) /\
    (forall n, In n (m_popdecr m) -> outstanding (after w h) n tx /\ ~ outstanding s' n tx /\ challenged h n tx) /\
    length (r_certs r) = length (m_popdecr m) /\ r_tx r = Some tx.
Proof. exact popdecr_after. Qed.
Theorem C13_answered_once : forall w h1 m v s' r h2 m2 v2 n tx,
  step w (after w h1) (m, v) = (s', Reply r) -> m_body m = B_popdecr -> r_ok r = true ->
  m_tx m = Some tx -> In n (m_popdecr m) -> ~ challenged h2 n tx ->
  m_body m2 = B_popdecr -> m_tx m2 = Some tx -> In n (m_popdecr m2) ->
  accepted (snd (step w (run w s' h2) (m2, v2))) = false.
Proof. exact challenge_once_after. Qed.
Example C13_ex :
  answers_to [reqs false true PopoAbsent [cA] (mk B_ir 1); popdecr 1 [41]; popdecr 2 [42]; popdecr 1 [42]; popdecr 1 [42]]
  = [(B_popdecc, true); (B_error, false); (B_error, false); (B_ip, true); (B_error, false)].
Proof. vm_compute. reflexivity. Qed.

(** ** C14: [checked_sigs] lists the pairs (certificate, leaf index) the CA looks at. *)
Theorem C14_index_accepted_once_partial : forall w h,
  c_val_burn (w_cfg w) = true -> NoDup (accepted_sigs w (log w ca_init h)).
Proof. exact sigs_nodup. Qed.
Definition ir_stfl (t : Z) (c : cert) : msg := reqs true false (PopoIndex 0) [c] (mk B_ir t).
Example C14_ex :
  let ms := [ir_stfl 1 cS; prot 7 1 [cS] (ir 2 cA); prot 7 1 [cS] (ir 3 cB); prot 7 0 [cS] (ir 4 cB);
             prot 7 2 [cS] (ir 5 cB)] in
  answers_to ms = [(B_ip, true); (B_ip, true); (B_error, false); (B_error, false); (B_ip, true)] /\
  accepted_sigs w0 (log w0 ca_init (with_v0 ms)) = [(cS, 1); (cS, 2)].
Proof. vm_compute. split; reflexivity. Qed.
(** Deviations: the index of a revocation request is not looked at, nor is the
    protection of a certConf inside a batch; and the indices are kept per certificate,
    not per key. *)
Theorem C14_revocation_index_reused_refuted : exists w h m1 m2 c i v,
  m_extra m1 = [c] /\ m_extra m2 = [c] /\ m_prot m1 = Some [i] /\ m_prot m2 = Some [i] /\
  w_sig_index w c [i] = Ok i /\ has_prot_type w m1 PT_STFL = true /\ has_prot_type w m2 PT_STFL = true /\
  m_body m1 = B_rr /\ m_body m2 = B_rr /\
  accepted (snd (step w (after w h) (m1, v))) = true /\
  accepted (snd (step w (after w (h ++ [(m1, v)])) (m2, v))) = true.
Proof.
  exists w0, (with_v0 [ir_implicit 9 cB; ir_stfl 1 cS]),
    (prot 7 1 [cS] (revoke 2 cS 22 R_certificateHold)), (prot 7 1 [cS] (revoke 3 cS 22 R_removeFromCRL)), cS, 1, v0.
  repeat split; vm_compute; reflexivity.
Qed.
Theorem C14_batched_confirmation_index_reused_refuted : exists w h m i1 i2 c i v,
  is_batch m /\ m_inner m = [i1; i2] /\ m_extra i1 = [c] /\ m_extra i2 = [c] /\
  m_prot i1 = Some [i] /\ m_prot i2 = Some [i] /\ w_sig_index w c [i] = Ok i /\
  has_prot_type w i1 PT_STFL = true /\ has_prot_type w i2 PT_STFL = true /\
  exists r, snd (step w (after w h) (m, v)) = Reply r /\ r_ok r = true /\ map r_ok (r_inner r) = [true; true].
Proof.
  exists w0, (with_v0 [ir_stfl 1 cS; prot 7 1 [cS] (ir 3 cA); prot 7 2 [cS] (ir 4 cB)]).
  exists (nonces 5 (Some 99) (nested 5 cC [prot 7 1 [cS] (conf 3 CS_absent cA); nonces 51 (Some 99) (prot 7 1 [cS] (conf 4 CS_absent cB))])).
  do 2 eexists. exists cS, 1, v0. split; [split; [reflexivity | cbn; lia] |]. split; [reflexivity |].
  repeat (split; [vm_compute; reflexivity |]). eexists. split; [vm_compute; reflexivity |]. split; reflexivity.
Qed.
Theorem C14_same_key_other_certificate_refuted : exists w h m1 m2 c1 c2 i v,
  w_key_of w c1 = w_key_of w c2 /\ m_extra m1 = [c1] /\ m_extra m2 = [c2] /\
  w_sig_index w c1 [i] = Ok i /\ w_sig_index w c2 [i] = Ok i /\ m_prot m1 = Some [i] /\ m_prot m2 = Some [i] /\
  has_prot_type w m1 PT_STFL = true /\ has_prot_type w m2 PT_STFL = true /\ m_body m1 = B_ir /\ m_body m2 = B_ir /\
  accepted (snd (step w (after w h) (m1, v))) = true /\
  accepted (snd (step w (after w (h ++ [(m1, v)])) (m2, v))) = true.
Proof.
  exists w0, (with_v0 [ir_stfl 1 cS; ir_stfl 2 [5; 14; 25; 7]]),
    (prot 7 1 [cS] (ir 3 cA)), (prot 7 1 [[5; 14; 25; 7]] (ir 4 cB)), cS, [5; 14; 25; 7], 1, v0.
  repeat split; vm_compute; reflexivity.
Qed.

(** ** C15 *)
Theorem C15_certconf_accepted_partial : forall w h m v s' r,
  step w (after w h) (m, v) = (s', Reply r) -> m_body m = B_certConf -> r_ok r = true ->
  exists tx c m0 v0 q enc k hash,
    m_tx m = Some tx /\ r_tx r = Some tx /\ r_rnonce r = m_snonce m /\ r_body r = B_pkiconf /\
    (* an earlier request of this transaction got the certificate c *)
    In (m0, v0) h /\ contains m0 q /\ is_cert_req (m_body q) = true /\ m_tx q = Some tx /\
    v_issue v0 q = Ok (true, [c], enc) /\
    (* the nonces continue the exchange *)
    m_rnonce m = Some (v_nonce v0 q) /\ (c_fresh (w_cfg w) = true -> m_snonce m <> m_snonce q) /\
    (* one status with the digest of c, unless it rejects c *)
    m_conf m = [k] /\ k_id k = 0 /\ k_hash k = Some hash /\
    (k_status k = CS_rejection \/ w_conf_digest w (k_alg k) (m_pvno m) c = Ok hash) /\
    (* the effect *)
    get_cert_state (w_H w) (s_db (after w h)) c = NOT_CONFIRMED /\
    get_cert_state (w_H w) (s_db s') c = CONFIRMED /\
    ~ In tx (s_confirmed (after w h)) /\ In tx (s_confirmed s') /\
    dget bytes_eqb tx (s_ccerts s') = None /\ dget bytes_eqb tx (s_creq s') = None.
Proof. exact cert_conf_accepted. Qed.
Theorem C15_confirmed_once : forall w h,
  NoDup (flat_map (fun x => in_reply confirmations (snd x)) (log w ca_init h)).
Proof. exact confirmations_nodup. Qed.
Example C15_ex :
  let ms := [ir 1 cA; ir 2 cB; conf 2 CS_absent cA; nonces 50 (Some 7) (conf 2 CS_absent cB); conf 3 CS_absent cB;
             conf 2 CS_absent cB; conf 2 CS_absent cB; conf 1 (CS_accepted false) cA] in
  map snd (answers_to ms) = [true; true; false; false; false; true; false; true] /\
  states (after w0 (with_v0 ms)) [cA; cB] = [CONFIRMED; CONFIRMED] /\
  flat_map (fun x => in_reply confirmations (snd x)) (log w0 ca_init (with_v0 ms)) = [b16 2; b16 1].
Proof. vm_compute. repeat split. Qed.
(** Deviation: a certConf by which the client refuses the certificate is accepted and
    confirms it, with any hash. *)
Theorem C15_refused_certificate_confirmed_refuted : exists w h m v k c,
  m_conf m = [k] /\ k_status k = CS_rejection /\
  k_hash k <> Some c /\ w_conf_digest w (k_alg k) (m_pvno m) c = Ok c /\
  accepted (snd (step w (after w h) (m, v))) = true /\
  get_cert_state (w_H w) (s_db (after w h)) c = NOT_CONFIRMED /\
  get_cert_state (w_H w) (s_db (fst (step w (after w h) (m, v)))) c = CONFIRMED.
Proof.
  exists w0, (with_v0 [ir 1 cA]), (conf 1 CS_rejection cB), v0. eexists. exists cA.
  repeat split; vm_compute; try reflexivity. discriminate.
Qed.

(** ** C16 *)
Theorem C16_bad_signer_rejected : forall w s m v c,
  m_body m <> B_rr -> hd_error (m_extra m) = Some c ->
  (get_cert_state (w_H w) (s_db s) c = REVOKED \/ get_cert_state (w_H w) (s_db s) c = UPDATED) ->
  fst (step w s (m, v)) = s /\ accepted (snd (step w s (m, v))) = false /\
  (forall r, snd (step w s (m, v)) = Reply r -> r_body r = B_error /\ r_fail r = Some ECertRevoked).
Proof. exact bad_signer_rejected. Qed.
Theorem C16_good_signer_allowed : forall w v m s c e,
  get_cert (w_H w) (s_db s) c = Some e ->
  (e_state e = CONFIRMED \/ e_state e = REVIVED \/ e_state e = NOT_CONFIRMED) ->
  (forall x, In x (db_certs (s_db s)) -> e_digest x = w_H w c -> x = e) ->
  not_allowed w v m c s = Ok tt.
Proof. exact valid_signer_allowed. Qed.
(** The time rules for a certificate with an update that is not confirmed yet. *)
Theorem C16_pending_update_rules : forall w v m s c e t,
  get_cert (w_H w) (s_db s) c = Some e -> e_state e = UPDATED_BUT_NOT_CONFIRMED -> e_upd_date e = Some t ->
  not_allowed w v m c s =
    match m_body m with
    | B_ir | B_cr | B_p10cr | B_rr => Err EBadRequest
    | B_kur => if v_now v - t <? db_timeout (s_db s) then Err EBadRequest else Ok tt
    | B_certConf => if db_timeout (s_db s) <? v_now v - t then Err EBadRequest else Ok tt
    | _ => if db_timeout (s_db s) <? v_now v - t then Ok tt else Err ECertRevoked
    end.
Proof. exact not_allowed_pending. Qed.
Example C16_ex :
  let kur t old new := prot 1 0 [old] (reqs true false PopoAbsent [new] (mk B_kur t)) in
  answers_to [ir_implicit 1 cA; ir_implicit 2 cB; prot 1 0 [cA] (ir 3 cC); revoke 4 cA 22 R_keyCompromise;
              prot 1 0 [cB] (ir 5 [7; 17; 27; 0]); kur 6 cA [1; 18; 28; 0]; prot 1 0 [cA] (ir 7 [7; 17; 27; 0])]
  = [(B_ip, true); (B_ip, true); (B_ip, true); (B_rp, true); (B_error, false); (B_kup, true); (B_error, false)].
Proof. vm_compute. reflexivity. Qed.
(** Deviation: the signer of a message inside a nested message is not checked. *)
Theorem C16_nested_revoked_signer_refuted : exists w h m i c v r,
  m_inner m = [i] /\ m_body i = B_cr /\ has_prot_type w i PT_TRAD = true /\ hd_error (m_extra i) = Some c /\
  get_cert_state (w_H w) (s_db (after w h)) c = REVOKED /\
  snd (step w (after w h) (m, v)) = Reply r /\ r_body r = B_cp /\ r_ok r = true.
Proof.
  exists w0, (with_v0 [ir_implicit 1 cA; ir_implicit 2 cB; revoke 3 cA 22 R_keyCompromise]),
    (nested 4 cA [prot 1 0 [cB] (reqs false false PopoAbsent [cC] (mk B_cr 4))]).
  eexists. exists cB, v0. eexists. split; [reflexivity |]. repeat (split; [vm_compute; reflexivity |]). split; reflexivity.
Qed.

(** ** C17 *)
Theorem C17_revocation_all_or_nothing_partial : forall w s m v s' o,
  step w s (m, v) = (s', o) -> m_body m = B_rr ->
  exists k,
    (s' = set_kem s k /\ accepted o = false) \/
    (exists d, revokes_named w m (s_db s) d /\ s' = set_db (set_kem s k) d /\
               forall r, o = Reply r -> r_ok r = true /\ r_body r = B_rp).
Proof. exact rr_effect. Qed.
Example C17_ex :
  let ms := [ir_implicit 1 cA; ir_implicit 2 cB; ir_implicit 3 cC; revoke 4 cA 22 R_keyCompromise; revoke 5 cA 22 R_keyCompromise;
             revoke 6 cA 77 R_keyCompromise; revoke 7 cA 23 R_keyCompromise; revoke 8 cA 22 R_removeFromCRL;
             revoke 9 cA 21 R_removeFromCRL] in
  skipn 3 (answers_to ms) = [(B_rp, true); (B_rp, false); (B_rp, false); (B_rp, true); (B_rp, true); (B_rp, false)] /\
  states (after w0 (with_v0 ms)) [cA; cB; cC] = [CONFIRMED; REVIVED; REVOKED].
Proof. vm_compute. split; reflexivity. Qed.
(** Deviation: if the answer cannot be protected the client gets a failure although
    the certificate was revoked. *)
Theorem C17_failure_after_revocation_refuted : exists w h m v c,
  m_body m = B_rr /\ snd (step w (after w h) (m, v)) = Http500 /\
  get_cert_state (w_H w) (s_db (after w h)) c = CONFIRMED /\
  get_cert_state (w_H w) (s_db (fst (step w (after w h) (m, v)))) c = REVOKED.
Proof.
  exists w0, (with_v0 [ir_implicit 1 cA; ir_implicit 2 cB]), (revoke 3 cA 22 R_keyCompromise), v_noprotect, cB.
  repeat split; vm_compute; reflexivity.
Qed.

(** ** C18 *)
Theorem C18_empty_nested_refused : forall w s m v s' o,
  step w s (m, v) = (s', o) -> m_body m = B_nested -> m_inner m = [] ->
  accepted o = false /\ exists t, s' = set_stfl s t.
Proof. exact empty_nested. Qed.
Theorem C18_one_inner_is_added_protection : forall w s m v s' r q,
  step w s (m, v) = (s', Reply r) -> m_body m = B_nested -> m_inner m = [q] -> r_ok r = true ->
  answers q r /\ m_tx q = m_tx m /\ m_snonce q = m_snonce m /\ (is_cert_req (m_body q) = true \/ m_body q = B_certConf).
Proof. exact added_step. Qed.
Theorem C18_batch_answered_in_order : forall w s m v s' r,
  step w s (m, v) = (s', Reply r) -> is_batch m ->
  if r_ok r then batch_answered m r else exists q, contains m q /\ answers q r.
Proof. exact batch_step. Qed.
Example C18_ex :
  let out m := match snd (step w0 (after w0 (with_v0 [ir_implicit 1 cA])) (m, v0)) with
               | Reply r => (r_body r, r_ok r, map (fun i => (r_body i, r_ok i, r_tx i)) (r_inner r))
               | Http500 => (B_error, false, []) end in
  map out [nested 2 cA []; nested 2 cA [ir 2 cB]; nested 2 cA [ir 3 cB; ir 4 cA; ir 5 cC]; nested 2 cA [ir 3 cB; ir 3 cC];
           nested 2 cA [ir 3 cB; ir 2 cC]]
  = [(B_error, false, []); (B_ip, true, []);
     (B_nested, true, [(B_ip, true, Some (b16 3)); (B_ip, false, Some (b16 4)); (B_ip, true, Some (b16 5))]);
     (B_error, false, []); (B_error, false, [])].
Proof. vm_compute. reflexivity. Qed.
(** Deviation: a batch that is refused as a whole keeps the effects of the messages
    before the one that failed. *)
Theorem C18_refused_batch_keeps_effects_refuted : exists w h m v c,
  is_batch m /\ accepted (snd (step w (after w h) (m, v))) = false /\
  get_cert_state (w_H w) (s_db (after w h)) c = UNKNOWN /\
  get_cert_state (w_H w) (s_db (fst (step w (after w h) (m, v)))) c = NOT_CONFIRMED.
Proof.
  exists w0, (with_v0 [ir_implicit 1 cA]), (nested 2 cA [ir 3 cB; prot 7 0 [] (ir 4 cC)]), v0, cB.
  split; [split; [reflexivity | cbn; lia] |]. repeat split; vm_compute; reflexivity.
Qed.

(** ** C19 *)
Theorem C19_reply_bound_to_request_partial : forall w s m v s' r,
  step w s (m, v) = (s', Reply r) ->
  answered m r \/ (is_batch m /\ r_ok r = false /\ exists q, contains m q /\ answers q r).
Proof. exact step_answers. Qed.
Theorem C19_ids_echoed : forall w s m v s' r,
  step w s (m, v) = (s', Reply r) -> ~ is_batch m \/ r_ok r = true ->
  r_tx r = m_tx m /\ r_rnonce r = m_snonce m.
Proof.
  intros w s m v s' r E Hm. apply step_answers in E.
  destruct E as [[(q & (_ & Ht & Hn) & (A & B & _) & _) | (_ & A & B & _)] | (Hb & Hok & _)].
  - rewrite A, B. auto.
  - auto.
  - destruct Hm as [Hm | Hm]; [contradiction | congruence].
Qed.
Example C19_ex :
  map (fun x => match snd x with Reply r => (r_body r, r_ok r, r_tx r, r_rnonce r) | Http500 => (B_error, true, None, None) end)
    (log w0 ca_init (with_v0 [nonces 8 None (ir 1 cA); nonces 9 None (ir 1 cB); nonces 7 None (mk B_pollReq 3)]))
  = [(B_ip, true, Some (b16 1), Some (b16 8)); (B_error, false, Some (b16 1), Some (b16 9)); (B_error, false, Some (b16 3), Some (b16 7))].
Proof. vm_compute. reflexivity. Qed.
(** Deviation: the refusal of a batch may carry the ids of a message inside it. *)
Theorem C19_batch_refusal_other_ids_refuted : exists w h m v r,
  is_batch m /\ snd (step w (after w h) (m, v)) = Reply r /\ r_ok r = false /\ r_tx r <> m_tx m /\ r_rnonce r <> m_snonce m.
Proof.
  exists w0, (with_v0 [ir_implicit 1 cA]),
    (nested 2 cA [ir 3 cB; nested 4 cA [prot 3 0 [cA] (reqs false false PopoAbsent [cC] (mk B_ccr 4))]]), v0.
  eexists. split; [split; [reflexivity | cbn; lia] |]. split; [vm_compute; reflexivity |].
  repeat split; vm_compute; discriminate.
Qed.

(** ** C47 *)
Theorem C47_issued_certificates_recorded_partial : forall w s m v s' r,
  step w s (m, v) = (s', Reply r) -> is_cert_req (m_body m) = true -> m_challenge m = false ->
  if r_ok r
  then (forall c, In c (r_certs r) -> recorded w (s_db s') c (if r_implicit r then CONFIRMED else NOT_CONFIRMED)) /\
       length (db_certs (s_db s')) = (length (db_certs (s_db s)) + length (r_certs r))%nat
  else ((forall certs enc, v_issue v m = Ok (true, certs, enc) -> forall c, In c certs -> w_is_stfl w c = false) \/
        m_implicit m = false) -> s_db s' = s_db s.
Proof. exact cert_req_step. Qed.
Example C47_ex :
  let ms := [ir 1 cA; ir_implicit 2 cB; reqs false false PopoAbsent [cC; [7; 17; 27; 0]] (mk B_ir 3); ir 3 [8; 18; 28; 0]] in
  map snd (answers_to ms) = [true; true; true; false] /\
  map (fun e => (e_cert e, e_state e)) (db_certs (s_db (after w0 (with_v0 ms))))
  = [(cA, NOT_CONFIRMED); (cB, CONFIRMED); (cC, NOT_CONFIRMED); ([7; 17; 27; 0], NOT_CONFIRMED)].
Proof. vm_compute. split; reflexivity. Qed.
(** Deviations: a certificate obtained by answering a challenge is not recorded; a
    request that is refused because the proof of possession of a stateful key cannot be
    read leaves the certificate recorded as confirmed. *)
Theorem C47_challenge_certificate_unrecorded_refuted : exists w h m v r c,
  snd (step w (after w h) (m, v)) = Reply r /\ r_body r = B_ip /\ r_ok r = true /\ In c (r_certs r) /\
  get_cert_state (w_H w) (s_db (fst (step w (after w h) (m, v)))) c = UNKNOWN.
Proof.
  exists w0, (with_v0 [reqs false true PopoAbsent [cA] (mk B_ir 1)]), (popdecr 1 [42]), v0. eexists. exists cA.
  split; [vm_compute; reflexivity |]. repeat split; try reflexivity. now left.
Qed.
Theorem C47_refused_stateful_request_recorded_refuted : exists w h m v c,
  is_cert_req (m_body m) = true /\ accepted (snd (step w (after w h) (m, v))) = false /\
  get_cert_state (w_H w) (s_db (after w h)) c = UNKNOWN /\
  get_cert_state (w_H w) (s_db (fst (step w (after w h) (m, v)))) c = CONFIRMED.
Proof.
  exists w0, [], (reqs true false PopoBad [cS] (mk B_ir 1)), v0, cS. repeat split; vm_compute; reflexivity.
Qed.

(** ** C48 *)
Theorem C48_state_changes_need_authority : forall w h m v c,
  let s := after w h in
  let s' := fst (step w s (m, v)) in
  get_cert_state (w_H w) (s_db s') c <> get_cert_state (w_H w) (s_db s) c ->
  authority w m c (get_cert_state (w_H w) (s_db s) c) (get_cert_state (w_H w) (s_db s') c).
Proof. exact step_authority. Qed.
Example C48_ex :
  let h := with_v0 [ir_implicit 1 cA; ir 2 cB; conf 2 CS_absent cB; revoke 3 cA 22 R_keyCompromise;
                    prot 1 0 [cA] (reqs true false PopoAbsent [[1; 19; 29; 0]] (mk B_kur 4))] in
  map (fun n => states (after w0 (firstn n h)) [cA; cB]) [1; 2; 3; 4; 5]%nat
  = [[CONFIRMED; UNKNOWN]; [CONFIRMED; NOT_CONFIRMED]; [CONFIRMED; CONFIRMED]; [CONFIRMED; REVOKED]; [UPDATED; REVOKED]].
Proof. vm_compute. reflexivity. Qed.

(** ** C49 *)
Theorem C49_database_append_only : forall w h1 h2,
  exists l1 l2, db_certs (s_db (after w (h1 ++ h2))) = l1 ++ l2 /\
                Forall2 same_identity (db_certs (s_db (after w h1))) l1.
Proof.
  intros w h1 h2. unfold after, run. rewrite fold_left_app. apply (run_extends w h2).
Qed.
Example C49_ex : map e_cert (db_certs (s_db (after w0 (with_v0 [ir 1 cA; ir 2 cB; conf 1 CS_absent cA])))) = [cA; cB].
Proof. vm_compute. reflexivity. Qed.

Print Assumptions C11_take_only_unused.
Print Assumptions C11_reuse_needs_removal.
Print Assumptions C11_granted_once_partial.
Print Assumptions C12_unusable_secret_rejected.
Print Assumptions C12_secret_used_once_partial.
Print Assumptions C12_secret_was_agreed.
Print Assumptions C13_answer_matches_challenge.
Print Assumptions C13_answered_once.
Print Assumptions C14_index_accepted_once_partial.
Print Assumptions C15_certconf_accepted_partial.
Print Assumptions C15_confirmed_once.
Print Assumptions C16_bad_signer_rejected.
Print Assumptions C16_pending_update_rules.
Print Assumptions C17_revocation_all_or_nothing_partial.
Print Assumptions C18_batch_answered_in_order.
Print Assumptions C19_reply_bound_to_request_partial.
Print Assumptions C47_issued_certificates_recorded_partial.
Print Assumptions C48_state_changes_need_authority.
Print Assumptions C49_database_append_only.
