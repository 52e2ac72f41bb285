(** Independent vocabulary for the statements about the whole CA: histories of
    requests, the replies they got, and what a client observes in them. *)
From Verif Require Export CAModel CADbSpec.
Local Open Scope Z_scope.

(** A history is the list of requests the CA received, each with the outcome of
    everything that is not modelled. *)
Definition history := list (msg * env).

Section Histories.
Variable w : world.

Definition run (s : ca) (h : history) : ca := fold_left (fun s x => fst (step w s x)) h s.

(** The state of the CA after it served [h] since start-up. *)
Definition after (h : history) : ca := run ca_init h.

(** What the clients saw. *)
Fixpoint log (s : ca) (h : history) : list (msg * outcome) :=
  match h with
  | [] => []
  | x :: h' => (fst x, snd (step w s x)) :: log (fst (step w s x)) h'
  end.
End Histories.

(** A request was answered positively / negatively. *)
Definition accepted (o : outcome) : bool := match o with Reply r => r_ok r | Http500 => false end.

(** Certificate responses. *)
Definition is_cert_rep (b : body) : bool := body_in b [B_ip; B_cp; B_kup; B_ccp].

(** The transaction ids for which a reply (or a reply inside it) hands out
    certificates. *)
Definition own_grant (r : resp) : list bytes :=
  if is_cert_rep (r_body r) && r_ok r then match r_tx r with Some t => [t] | None => [] end else [].
Fixpoint grants (r : resp) : list bytes := own_grant r ++ flat_map grants (r_inner r).

(** The transaction ids for which a reply confirms certificates. *)
Definition own_confirmation (r : resp) : list bytes :=
  if body_eqb (r_body r) B_pkiconf && r_ok r then match r_tx r with Some t => [t] | None => [] end else [].
Fixpoint confirmations (r : resp) : list bytes := own_confirmation r ++ flat_map confirmations (r_inner r).

Definition in_reply (f : resp -> list bytes) (o : outcome) : list bytes :=
  match o with Reply r => f r | Http500 => [] end.

(** The message or one of the messages nested in it (at any depth). *)
Inductive contains : msg -> msg -> Prop :=
| contains_self m : contains m m
| contains_inner m i q : In i (m_inner m) -> contains i q -> contains m q.

(** The body types that answer a request positively. *)
Definition good_bodies (b : body) : list body :=
  match b with
  | B_ir => [B_ip; B_popdecc] | B_cr => [B_cp; B_popdecc] | B_p10cr => [B_cp] | B_kur => [B_kup]
  | B_ccr => [B_ccp] | B_rr => [B_rp] | B_certConf => [B_pkiconf] | B_genm => [B_genp]
  | B_popdecr => [B_ip] | _ => []
  end.

(** [r] answers the (unnested) message [q]: it names the transaction and echoes the
    nonce of [q], has a body that fits and carries a failure exactly if it is a
    rejection. *)
Definition answers (q : msg) (r : resp) : Prop :=
  r_tx r = m_tx q /\ r_rnonce r = m_snonce q /\ r_inner r = [] /\
  if r_ok r then In (r_body r) (good_bodies (m_body q)) /\ r_fail r = None
  else r_fail r <> None /\
       (r_body r = B_error \/
        (is_cert_req (m_body q) || body_eqb (m_body q) B_rr = true /\ In (r_body r) (good_bodies (m_body q)))).

(** A nested message with more than one message inside. *)
Definition is_batch (m : msg) : Prop := m_body m = B_nested /\ (length (m_inner m) >= 2)%nat.

(** The message and those directly inside it have distinct 16-byte transaction ids
    and sender nonces. *)
Definition distinct_ids (m : msg) : Prop :=
  exists ids nonces,
    map m_tx (m :: m_inner m) = map Some ids /\ NoDup ids /\ Forall (fun x => length x = 16%nat) ids /\
    map m_snonce (m :: m_inner m) = map Some nonces /\ NoDup nonces /\ Forall (fun x => length x = 16%nat) nonces.

(** A message of the same exchange: [x] is [m] or is inside it, with the same
    transaction id and nonce. *)
Definition like (m x : msg) : Prop := contains m x /\ m_tx x = m_tx m /\ m_snonce x = m_snonce m.
(** replies inside a batch: one for every message, in order *)
Definition entry_answered (e : msg) (r : resp) : Prop :=
  exists q, (q = e \/ (m_body e = B_nested /\ m_inner e = [q])) /\
            m_tx q = m_tx e /\ m_snonce q = m_snonce e /\ answers q r.

(** the answer to a batch *)
Definition batch_answered (m : msg) (r : resp) : Prop :=
  r_tx r = m_tx m /\ r_rnonce r = m_snonce m /\ r_ok r = true /\ r_fail r = None /\ r_body r = B_nested /\
  Forall2 entry_answered (m_inner m) (r_inner r) /\ distinct_ids m.

(** [r] answers the request [m]: unless [m] is a batch, it answers [m] or the message in
    it that carries the same transaction id and nonce. *)
Definition answered (m : msg) (r : resp) : Prop :=
  (exists q, like m q /\ answers q r /\ (m_body m <> B_nested -> q = m)) \/ (is_batch m /\ batch_answered m r).

Section States.
Variable w : world.
(** The database has an entry for the certificate. *)
Definition recorded (d : cert_db) (c : cert) (st : cert_state) : Prop :=
  exists e, In e (db_certs d) /\ e_cert e = c /\ e_digest e = w_H w c /\ e_state e = st.

(** What a message must contain to move a certificate into a state. *)
Definition authority (m : msg) (c : cert) (old new : cert_state) : Prop :=
  exists q, contains m q /\
  match new with
  | UNKNOWN => False
  | NOT_CONFIRMED => is_cert_req (m_body q) = true /\ old = UNKNOWN
  | CONFIRMED => (is_cert_req (m_body q) = true /\ m_implicit q = true /\ old = UNKNOWN)
                 \/ (m_body q = B_certConf /\ (old = NOT_CONFIRMED \/ old = UNKNOWN))
  | REVOKED | REVIVED => m_body q = B_rr
  | UPDATED => (m_body q = B_kur /\ m_implicit q = true /\ exists s, hd_error (m_extra q) = Some s /\ w_H w s = w_H w c)
               \/ m_body q = B_certConf
  | UPDATED_BUT_NOT_CONFIRMED => m_body q = B_kur /\ exists s, hd_error (m_extra q) = Some s /\ w_H w s = w_H w c
  end.


(** Between [d] and [d'] only the entry of [c] changed, which is now in the state [new]
    and records the revocation reason [why]. *)
Definition moved (d d' : cert_db) (c : cert) (new : cert_state) (why : option reason) : Prop :=
  (exists e, get_cert (w_H w) d' c = Some e /\ e_state e = new /\ option_map re_reason (e_rev e) = why) /\
  (forall c', w_H w c' <> w_H w c -> get_cert_state (w_H w) d' c' = get_cert_state (w_H w) d c') /\
  map e_cert (db_certs d') = map e_cert (db_certs d).

(** The request [m] names one certificate by a template; its state changes as the reason says. *)
Definition revokes_named (m : msg) (d d' : cert_db) : Prop :=
  exists rd rsn c,
    m_rr m = [rd] /\ d_reason rd = Ok rsn /\ w_tmpl_match w (d_template rd) c = true /\
    In c (map e_cert (db_certs d)) /\
    ((rsn = R_removeFromCRL /\ get_cert_state (w_H w) d c = REVOKED /\ moved d d' c REVIVED None) \/
     (rsn <> R_removeFromCRL /\ (get_cert_state (w_H w) d c = CONFIRMED \/ get_cert_state (w_H w) d c = REVIVED) /\
      moved d d' c REVOKED (Some rsn))).
End States.

(** ** Challenges *)
(** the CA waits for the answer [n] in transaction [tx] *)
Definition outstanding (s : ca) (n : Z) (tx : bytes) : Prop := dget chal_eqb (n, tx) (s_chal s) <> None.

(** the message that was answered with the challenge *)
Definition challenged (h : history) (n : Z) (tx : bytes) : Prop :=
  exists m v q, In (m, v) h /\ contains m q /\ m_tx q = Some tx /\ v_chal v q = Ok n /\
    m_challenge q = true /\ (m_body q = B_ir \/ m_body q = B_cr).


(** The one-time signatures (certificate digest and leaf index) that protect a message
    or the messages inside it and that the CA looks at.  Revocation requests and the
    certConf messages inside a batch are not among them. *)
Section Signatures.
Variable w : world.
Definition own_sig (m : msg) : list (bytes * Z) :=
  if has_prot_type w m PT_STFL then
    match m_extra m, m_prot m with
    | c :: _, Some sig => match w_sig_index w c sig with Ok i => [(w_H w c, i)] | Err _ => [] end
    | _, _ => []
    end
  else [].
Definition batched_sigs (e : msg) : list (bytes * Z) :=
  match m_body e with
  | B_nested => flat_map own_sig (m_inner e)
  | B_certConf => []
  | _ => own_sig e
  end.
Definition checked_sigs (m : msg) : list (bytes * Z) :=
  match m_body m with
  | B_rr => []
  | B_nested => own_sig m ++ match m_inner m with
                             | [i] => own_sig i
                             | es => flat_map batched_sigs es
                             end
  | _ => own_sig m
  end.
(** the signatures of the accepted messages *)
Definition accepted_sigs (l : list (msg * outcome)) : list (bytes * Z) :=
  flat_map (fun x => if accepted (snd x) then checked_sigs (fst x) else []) l.
End Signatures.

(** Operations on the set of transaction ids in use. *)
Inductive tx_op := TxStore (m : msg) (certs : list cert) | TxAdd (tx : bytes) | TxRemove (tx : bytes).
Definition no_msg : msg :=
  {| m_body := B_error; m_pvno := 2; m_tx := None; m_snonce := None; m_rnonce := None; m_sender := [];
     m_alg := None; m_prot := None; m_extra := []; m_implicit := false; m_reqs := []; m_challenge := false;
     m_conf := []; m_rr := []; m_popdecr := []; m_genm := G_empty; m_inner := [] |}.
Definition tx_call (s : ca) (o : tx_op) : ca * res unit :=
  match o with
  | TxStore m certs => store_tx m certs s
  | TxAdd tx => add_tx_id no_msg tx s
  | TxRemove tx => remove_tx_id no_msg tx s
  end.
Definition tx_of (o : tx_op) : option bytes :=
  match o with TxStore m _ => m_tx m | TxAdd tx | TxRemove tx => Some tx end.
Definition tx_takes (o : tx_op) : bool := match o with TxRemove _ => false | _ => true end.
Definition tx_run (s : ca) (os : list tx_op) : ca := fold_left (fun s o => fst (tx_call s o)) os s.

(** accepted requests of these kinds spend the secret *)
Definition spends (m : msg) : bool :=
  negb (body_in (m_body m) [B_nested; B_genm]) && negb (body_in (m_body m) [B_ir; B_cr] && m_challenge m).

