(** Model of the Mock CA request processing: mock_ca/ca_handler.py,
    cert_req_handler.py, cert_conf_handler.py, challenge_handler.py,
    nested_handler.py, prot_handler.py (validation part), rev_handler.py,
    stfl_validator.py and the bookkeeping classes KEMSharedSecretList and
    MockCAState of mock_fun.py.

    General simplifications
    - A PKIMessage is a record of the header fields, extraCerts and body content
      that the modelled code reads.  An absent [extraCerts] is the empty list.
    - Every *stateless* computation that is not modelled (ASN.1 decoding,
      signature and MAC verification, chain building, certificate issuing,
      response protection, random numbers, the clock) is a field of the record
      [env]: an arbitrary function that may change from one request to the next.
      Theorems quantify over all environments of all requests.
    - Statements of the code that only log are left out.
    - Only the route [/issuing] (process_normal_request) is modelled; the
      routes of the hybrid protocols share the same state through the modelled
      methods but are not modelled here. *)
From Verif Require Export MockFunModel.
Local Open Scope Z_scope.

(* ------------------------------------------------------------------ *)
(** ** Messages *)

(** resources/suiteenums.py 201-249 (ProtectedType) *)
Inductive ptype := PT_TRAD | PT_KEM | PT_DH | PT_MAC | PT_PQ | PT_COMP | PT_STFL.

Definition ptype_eqb (a b : ptype) : bool :=
  match a, b with
  | PT_TRAD, PT_TRAD | PT_KEM, PT_KEM | PT_DH, PT_DH | PT_MAC, PT_MAC
  | PT_PQ, PT_PQ | PT_COMP, PT_COMP | PT_STFL, PT_STFL => true
  | _, _ => false
  end.

(** What reading the stateful-signature index from the proof of possession gives,
    mock_ca/stfl_validator.py 111-144 (STFLPKIMessageValidator._get_popo_sig).  The
    exceptions are reduced to one of the suite's classes and one of Python's; none
    of them is a BodyRelevantError. *)
Inductive popo := PopoAbsent | PopoIndex (i : Z) | PopoBad | PopoCrash.
Definition popo_index (p : popo) : result (option Z) :=
  match p with
  | PopoAbsent => Ok None
  | PopoIndex i => Ok (Some i)
  | PopoBad => Err EBadRequest
  | PopoCrash => Err EValueError
  end.

(** One CertReqMsg (or the single request of a [p10cr]). *)
Record creq := {
  q_key : option pubkey;
  q_subject : bytes;
  q_delta : option pubkey;          (* chameleon delta key of a CSR *)
  q_template : bytes;
  q_popo : popo
}.

(** One CertStatus of a [certConf]. *)
Inductive cstatus := CS_absent | CS_accepted (failinfo : bool) | CS_rejection | CS_other.
Record centry := { k_id : Z; k_hash : option bytes; k_status : cstatus; k_alg : option bytes }.

(** One RevDetails of an [rr]: the template and the CRL reason, if it decodes
    (resources/ca_ra_utils.py 3360-3410 (validate_rr_crl_entry_details_reason)). *)
Record rdetail := { d_fields : result unit; d_template : bytes; d_reason : result reason }.

Inductive genm_kind := G_empty | G_kem | G_other.

Inductive msg := mkMsg {
  m_body : body;
  m_pvno : Z;
  m_tx : option bytes;
  m_snonce : option bytes;
  m_rnonce : option bytes;
  m_sender : bytes;                 (* DER of the sender field *)
  m_alg : option bytes;             (* protectionAlg OID *)
  m_prot : option bytes;            (* protection bits *)
  m_extra : list cert;
  m_implicit : bool;                (* implicitConfirm in generalInfo *)
  m_reqs : list creq;
  m_challenge : bool;               (* mock_ca/ca_handler.py 159-189 (_contains_challenge) *)
  m_conf : list centry;
  m_rr : list rdetail;
  m_popdecr : list Z;
  m_genm : genm_kind;
  m_inner : list msg                (* body of a [nested] message *)
}.

(** A response as the client sees it. *)
Inductive resp := mkResp {
  r_body : body;
  r_ok : bool;                      (* status other than "rejection" *)
  r_fail : option exn;              (* why it is a rejection *)
  r_tx : option bytes;
  r_rnonce : option bytes;
  r_snonce : bytes;
  r_certs : list cert;
  r_implicit : bool;
  r_inner : list resp
}.

Inductive outcome := Reply (r : resp) | Http500.

(* ------------------------------------------------------------------ *)
(** ** State *)

(** Python dictionaries as association lists: assignment replaces the value of
    an existing key in place and appends otherwise. *)
Section Dict.
Context {K V : Type} (eqb : K -> K -> bool).
Fixpoint dget (k : K) (d : list (K * V)) : option V :=
  match d with
  | [] => None
  | (k', v) :: d' => if eqb k k' then Some v else dget k d'
  end.
Fixpoint dset (k : K) (v : V) (d : list (K * V)) : list (K * V) :=
  match d with
  | [] => [(k, v)]
  | (k', v') :: d' => if eqb k k' then (k', v) :: d' else (k', v') :: dset k v d'
  end.
Fixpoint ddel (k : K) (d : list (K * V)) : list (K * V) :=
  match d with
  | [] => []
  | (k', v') :: d' => if eqb k k' then d' else (k', v') :: ddel k d'
  end.
End Dict.

Definition pair_eqb (a b : bytes * bytes) : bool :=
  bytes_eqb (fst a) (fst b) && bytes_eqb (snd a) (snd b).
Definition chal_eqb (a b : Z * bytes) : bool := (fst a =? fst b) && bytes_eqb (snd a) (snd b).

(** mock_ca/mock_fun.py 482-508 (KEMSharedSharedState) *)
Record kem_entry := { ke_ss : bytes; ke_tx : bytes; ke_sender : bytes; ke_used : bool }.

(** mock_ca/mock_fun.py 1324-1498 (MockCAState) (first five fields),
    mock_ca/challenge_handler.py 41-41 (ChallengeHandler.challenge),
    mock_ca/cert_conf_handler.py 39-199 (CertConfState),
    mock_ca/operation_dbs.py 456-502 (StatefulSigState) (keyed by the certificate hash) and
    [CertReqHandler.cross_signed_certs]. *)
Record ca := {
  s_ids : list bytes;
  s_txcerts : list ((bytes * bytes) * list cert);
  s_kem : list kem_entry;
  s_db : cert_db;
  s_rv : rev_db;                                  (* cert_state_db, never written *)
  s_chal : list ((Z * bytes) * (bytes * body));
  s_ccerts : list (bytes * list cert);            (* to_be_confirmed_certs *)
  s_cresp : list (bytes * resp);                  (* ca_responses *)
  s_creq : list (bytes * msg);                    (* requests *)
  s_confirmed : list bytes;                       (* already_confirmed_certs *)
  s_stfl : list (bytes * list Z);
  s_cross : list cert
}.

Definition ca_init : ca :=
  {| s_ids := []; s_txcerts := []; s_kem := []; s_db := db_init; s_rv := rv_init;
     s_chal := []; s_ccerts := []; s_cresp := []; s_creq := []; s_confirmed := [];
     s_stfl := []; s_cross := [] |}.

Definition set_tx (s : ca) ids tc : ca :=
  {| s_ids := ids; s_txcerts := tc; s_kem := s_kem s; s_db := s_db s; s_rv := s_rv s;
     s_chal := s_chal s; s_ccerts := s_ccerts s; s_cresp := s_cresp s; s_creq := s_creq s;
     s_confirmed := s_confirmed s; s_stfl := s_stfl s; s_cross := s_cross s |}.
Definition set_kem (s : ca) k : ca :=
  {| s_ids := s_ids s; s_txcerts := s_txcerts s; s_kem := k; s_db := s_db s; s_rv := s_rv s;
     s_chal := s_chal s; s_ccerts := s_ccerts s; s_cresp := s_cresp s; s_creq := s_creq s;
     s_confirmed := s_confirmed s; s_stfl := s_stfl s; s_cross := s_cross s |}.
Definition set_db (s : ca) d : ca :=
  {| s_ids := s_ids s; s_txcerts := s_txcerts s; s_kem := s_kem s; s_db := d; s_rv := s_rv s;
     s_chal := s_chal s; s_ccerts := s_ccerts s; s_cresp := s_cresp s; s_creq := s_creq s;
     s_confirmed := s_confirmed s; s_stfl := s_stfl s; s_cross := s_cross s |}.
Definition set_chal (s : ca) c : ca :=
  {| s_ids := s_ids s; s_txcerts := s_txcerts s; s_kem := s_kem s; s_db := s_db s; s_rv := s_rv s;
     s_chal := c; s_ccerts := s_ccerts s; s_cresp := s_cresp s; s_creq := s_creq s;
     s_confirmed := s_confirmed s; s_stfl := s_stfl s; s_cross := s_cross s |}.
Definition set_conf (s : ca) cc cr cq cf : ca :=
  {| s_ids := s_ids s; s_txcerts := s_txcerts s; s_kem := s_kem s; s_db := s_db s; s_rv := s_rv s;
     s_chal := s_chal s; s_ccerts := cc; s_cresp := cr; s_creq := cq;
     s_confirmed := cf; s_stfl := s_stfl s; s_cross := s_cross s |}.
Definition set_stfl (s : ca) t : ca :=
  {| s_ids := s_ids s; s_txcerts := s_txcerts s; s_kem := s_kem s; s_db := s_db s; s_rv := s_rv s;
     s_chal := s_chal s; s_ccerts := s_ccerts s; s_cresp := s_cresp s; s_creq := s_creq s;
     s_confirmed := s_confirmed s; s_stfl := t; s_cross := s_cross s |}.
Definition set_cross (s : ca) c : ca :=
  {| s_ids := s_ids s; s_txcerts := s_txcerts s; s_kem := s_kem s; s_db := s_db s; s_rv := s_rv s;
     s_chal := s_chal s; s_ccerts := s_ccerts s; s_cresp := s_cresp s; s_creq := s_creq s;
     s_confirmed := s_confirmed s; s_stfl := s_stfl s; s_cross := c |}.

(* ------------------------------------------------------------------ *)
(** ** Environments: the outcomes of everything that is not modelled *)
Record env := {
  v_now : Z;                                (* datetime.now() *)
  v_alg_ok : bytes -> bool;                 (* oid in self.alg_profile *)
  v_keys : msg -> result unit;              (* loading the public keys of a request *)
  v_hdr : msg -> bool -> result unit;       (* general info, message time, sender, senderKID, signer chain *)
  v_sig : msg -> result unit;               (* signature / MAC / DH-MAC verification *)
  v_trust : msg -> result unit;             (* trust in the signer (chain, trust anchors) *)
  v_ccr : msg -> result unit;               (* validate_signer_for_ccr *)
  v_nested_trust : msg -> result unit;      (* the signer is a trusted RA *)
  v_kem : msg -> bytes -> result unit;      (* verify_kem_based_mac_protection *)
  v_rr : msg -> result unit;                (* rr: signature, senderKID and sender checks *)
  v_orig : msg -> result unit;              (* validate_orig_pkimessage, validate_cert_req_id_nums *)
  v_conf : msg -> result unit;              (* validate_pkimessage_header for certConf *)
  v_issue : msg -> result (bool * list cert * bool); (* (accepted, certificates, encrypted) *)
  v_nonce : msg -> bytes;                   (* os.urandom(16) *)
  v_chal : msg -> result Z;                 (* build_popdecc_from_request *)
  v_build : bytes -> result cert;           (* build_cert_from_cert_template *)
  v_pop_resp : msg -> result unit;          (* building the ip message for popdecr *)
  v_ss : msg -> result bytes;               (* build_genp_kem_ct_info_from_genm *)
  v_genm : msg -> result unit;              (* process_general_msg *)
  v_protect : msg -> resp -> result unit    (* protecting a response *)
}.

(* ------------------------------------------------------------------ *)
(** ** State and exceptions: an exception keeps the state changes made before
    it was raised and, for BodyRelevantError, carries a message
    (resources/exceptions.py 363-384 (BodyRelevantError)). *)
Inductive res (A : Type) := ROk (a : A) | RErr (e : exn) (m : msg).
Arguments ROk {A} a.
Arguments RErr {A} e m.

Definition M (A : Type) := ca -> ca * res A.
Definition ret {A} (a : A) : M A := fun s => (s, ROk a).
Definition raise {A} (m : msg) (e : exn) : M A := fun s => (s, RErr e m).
Definition bindM {A B} (p : M A) (k : A -> M B) : M B :=
  fun s => match p s with
           | (s', ROk a) => k a s'
           | (s', RErr e m) => (s', RErr e m)
           end.
Definition get : M ca := fun s => (s, ROk s).
Definition modify (f : ca -> ca) : M unit := fun s => (f s, ROk tt).
Definition lift {A} (m : msg) (r : result A) : M A :=
  match r with Ok a => ret a | Err e => raise m e end.
(** [try p except h]: [h e m = None] lets the exception pass. *)
Definition catch {A} (p : M A) (h : exn -> msg -> option (M A)) : M A :=
  fun s => match p s with
           | (s', ROk a) => (s', ROk a)
           | (s', RErr e m) => match h e m with Some q => q s' | None => (s', RErr e m) end
           end.

Notation "x <- p ;; q" := (bindM p (fun x => q)) (at level 61, p at next level, right associativity).
Notation "p ;;; q" := (bindM p (fun _ => q)) (at level 61, right associativity).

(** subclasses of CMPTestSuiteError (resources/exceptions.py 15-49 (CMPTestSuiteError)) *)
Definition is_cmp (e : exn) : bool :=
  match e with
  | EValueError | ETypeError | EKeyError | EIndexError | ENotImplemented
  | ERuntimeError | EException | EAssertion | EInvalidSignature | EPyAsn1 => false
  | _ => true
  end.

(** Configuration of the two users of the stateful-signature state,
    mock_ca/mock_fun.py 1526-1538 (PQStatefulSigKeyConfig): the validator
    (mock_ca/stfl_validator.py 36) and the protection handler
    (mock_ca/prot_handler.py 140-143); and of the certConf handler
    (mock_ca/db_config_vars.py 28-52 (CertConfConfigVars)). *)
Record config := {
  c_val_ccr : bool; c_val_burn : bool;
  c_prot_ccr : bool; c_prot_burn : bool;
  c_same_alg : bool; c_must_prot : bool; c_fresh : bool
}.
Definition config_default : config :=
  {| c_val_ccr := true; c_val_burn := true; c_prot_ccr := false; c_prot_burn := true;
     c_same_alg := true; c_must_prot := true; c_fresh := true |}.

(** The functions of messages and certificates that the model leaves abstract, and
    the configuration.  They stay fixed during a history. *)
Record world := {
  w_H : bytes -> bytes;                      (* SHA-256 of a certificate *)
  w_subject : cert -> bytes;
  w_key_of : cert -> pubkey;
  w_ptype : bytes -> option ptype;           (* ProtectedType.get_protection_type of an OID *)
  w_is_stfl : cert -> bool;                  (* spki OID in PQ_STATEFUL_HASH_SIG_OID_2_NAME *)
  w_sig_index : cert -> bytes -> result Z;   (* get_pq_stateful_sig_index_from_sig *)
  w_tmpl_match : bytes -> cert -> bool;      (* compare_cert_template_and_cert *)
  w_conf_digest : option bytes -> Z -> cert -> result bytes; (* digest of _process_cert_hash_alg *)
  w_cfg : config
}.

Section CA.
Variable w : world.
Local Notation H := (w_H w).
Local Notation subject := (w_subject w).
Local Notation key_of := (w_key_of w).
Local Notation ptype_of := (w_ptype w).
Local Notation is_stfl := (w_is_stfl w).
Local Notation sig_index := (w_sig_index w).
Local Notation tmpl_match := (w_tmpl_match w).
Local Notation conf_digest := (w_conf_digest w).
Local Notation cfg := (w_cfg w).

(** [x.asOctets()] on an unset field raises a PyAsn1Error. *)
Definition octets (m : msg) (o : option bytes) : M bytes :=
  match o with Some b => ret b | None => raise m EPyAsn1 end.

(** resources/suiteenums.py 213-249 (ProtectedType.get_protection_type) on a message *)
Definition prot_type (m : msg) : result ptype :=
  match m_alg m with
  | None => Err EValueError
  | Some oid => match ptype_of oid with Some t => Ok t | None => Err EUnknownOID end
  end.

Definition has_prot_type (m : msg) (t : ptype) : bool :=
  match prot_type m with Ok t' => ptype_eqb t t' | Err _ => false end.

(* ------------------------------------------------------------------ *)
(** ** Header checks *)

(** resources/checkutils.py 311-360 (check_is_protection_present) *)
Definition protection_present (m : msg) (must : bool) : result bool :=
  match m_prot m, m_alg m with
  | None, None => if must then Err EBadMessageCheck else Ok false
  | Some _, None => Err EBadMessageCheck
  | None, Some _ => Err EBadMessageCheck
  | Some _, Some _ => Ok true
  end.

(** resources/checkutils.py 2510-2540 (validate_wrong_integrity) *)
Definition wrong_integrity (m : msg) : result unit :=
  if negb (body_in (m_body m) [B_ccr; B_kur; B_rr; B_nested]) then Ok tt
  else match m_alg m with
       | None => Err EBadMessageCheck
       | Some _ =>
           let! t := prot_type m in
           if ptype_eqb t PT_MAC then Err EBodyRelevant
           else if (ptype_eqb t PT_DH || ptype_eqb t PT_KEM) && body_eqb (m_body m) B_ccr
           then Err EBodyRelevant else Ok tt
       end.

(** resources/checkutils.py 2343-2389 (validate_request_message_nonces_and_tx_id) with [response = None] *)
Definition request_nonces (m : msg) : result unit :=
  if body_eqb (m_body m) B_nested then Err ENotImplemented
  else if body_eqb (m_body m) B_certConf then Err EValueError
  else match m_snonce m with
       | None => Err EBadSenderNonce
       | Some n =>
           match m_tx m with
           | None => Err EBadDataFormat
           | Some t =>
               match m_rnonce m with
               | Some _ => Err EBadRecipientNonce
               | None => if negb (length t =? 16)%nat then Err EBadRequest
                         else if negb (length n =? 16)%nat then Err EBadSenderNonce else Ok tt
               end
           end
       end.

(** mock_ca/cert_req_handler.py 582-617 (CertReqHandler.validate_header); the order of
    the stateless checks summarised by [v_hdr] is not modelled. *)
Definition validate_header (v : env) (m : msg) (must for_nested : bool) : result unit :=
  let! _ := guard ((m_pvno m =? 2) || (m_pvno m =? 3)) EUnsupportedVersion in
  let! _ := (if for_nested then Ok tt else request_nonces m) in
  let! _ := v_hdr v m must in
  let! _ := protection_present m must in
  wrong_integrity m.

(* ------------------------------------------------------------------ *)
(** ** KEM shared secrets (mock_ca/mock_fun.py 512-627 (KEMSharedSecretList)) *)

(** mock_ca/mock_fun.py 580-585 (KEMSharedSecretList.get_shared_secret_object) *)
Definition kem_find (l : list kem_entry) (tx : bytes) : option kem_entry :=
  find (fun k => bytes_eqb tx (ke_tx k)) l.

(** mock_ca/mock_fun.py 549-556 (KEMSharedSecretList.add_shared_secret) *)
Definition kem_add (l : list kem_entry) (ss tx sender : bytes) : list kem_entry :=
  l ++ [{| ke_ss := ss; ke_tx := tx; ke_sender := sender; ke_used := false |}].

(** mock_ca/mock_fun.py 535-547 (KEMSharedSecretList.update_shared_secret_state) *)
Definition kem_mark (l : list kem_entry) (tx : bytes) : list kem_entry :=
  map (fun k => if bytes_eqb tx (ke_tx k)
                then {| ke_ss := ke_ss k; ke_tx := ke_tx k; ke_sender := ke_sender k; ke_used := true |}
                else k) l.

(** mock_ca/mock_fun.py 587-609 (KEMSharedSecretList.verify_pkimessage_protection).
    With an empty list the transaction id is not read. *)
Definition kem_verify (v : env) (m : msg) : M unit :=
  s <- get ;;
  match s_kem s with
  | [] => raise m EBadMessageCheck
  | _ =>
      tx <- octets m (m_tx m) ;;
      match kem_find (s_kem s) tx with
      | None => raise m EBadMessageCheck
      | Some k =>
          if body_eqb (m_body m) B_certConf then lift m (v_kem v m (ke_ss k))
          else if ke_used k then raise m EBadMessageCheck
          else lift m (v_kem v m (ke_ss k))
      end
  end.

(** mock_ca/mock_fun.py 611-627 (KEMSharedSecretList.may_update_state) *)
Definition kem_update (m : msg) : M unit :=
  match m_alg m with
  | None => ret tt
  | Some _ =>
      if has_prot_type m PT_KEM
      then s <- get ;;
           match s_kem s with
           | [] => _ <- octets m (m_tx m) ;; ret tt
           | _ => tx <- octets m (m_tx m) ;; modify (fun s => set_kem s (kem_mark (s_kem s) tx))
           end
      else ret tt
  end.

(* ------------------------------------------------------------------ *)
(** ** Stateful signature indices (mock_ca/operation_dbs.py 456-502 (StatefulSigState)) *)

(** mock_ca/operation_dbs.py 470-476 (StatefulSigState.get_state) *)
Definition stfl_state (s : ca) (c : cert) : option (list Z) := dget bytes_eqb (H c) (s_stfl s).

(** mock_ca/operation_dbs.py 445-447 (StatefulSigKeyState.add_used_index) on the state of a certificate *)
Definition stfl_use (c : cert) (i : Z) : M unit :=
  modify (fun s => match stfl_state s c with
                   | Some l => set_stfl s (dset bytes_eqb (H c) (l ++ [i]) (s_stfl s))
                   | None => s
                   end).

(** mock_ca/operation_dbs.py 462-468 (StatefulSigState.add_state) *)
Definition stfl_add (m : msg) (c : cert) (i : Z) : M unit :=
  s <- get ;;
  match stfl_state s c with
  | Some _ => raise m EBadRequest
  | None => modify (fun s => set_stfl s (dset bytes_eqb (H c) [i] (s_stfl s)))
  end.

(** Common part of mock_ca/stfl_validator.py 61-109 (STFLPKIMessageValidator.validate_pq_stateful_pki_message)
    and mock_ca/prot_handler.py 572-629 (ProtectionHandler.validate_stfl_signature_protection),
    after the protection type is known to be stateful. *)
Definition stfl_check (m : msg) (allow_ccr burn exclude : bool) : M unit :=
  match m_extra m with
  | [] => raise m EBadMessageCheck
  | c :: _ =>
      if body_eqb (m_body m) B_ccr && negb allow_ccr then raise m EBadRequest
      else if negb (is_stfl c) then raise m EBadMessageCheck
      else if exclude then ret tt
      else
        s <- get ;;
        match stfl_state s c with
        | None => raise m EBadMessageCheck
        | Some used =>
            sig <- octets m (m_prot m) ;;
            i <- lift m (sig_index c sig) ;;
            if existsb (Z.eqb i) used then raise m EBadMessageCheck
            else if burn then stfl_use c i else ret tt
        end
  end.

(** mock_ca/stfl_validator.py 61-109 (STFLPKIMessageValidator.validate_pq_stateful_pki_message) *)
Definition stfl_validate (m : msg) : M unit :=
  match m_alg m with
  | None => ret tt
  | Some _ =>
      t <- lift m (prot_type m) ;;
      if ptype_eqb t PT_STFL then stfl_check m (c_val_ccr cfg) (c_val_burn cfg) false else ret tt
  end.

(** mock_ca/stfl_validator.py 38-59 (STFLPKIMessageValidator.add_pq_stateful_pki_message) *)
Definition stfl_add_msg (m : msg) : M unit :=
  match m_alg m with
  | None => ret tt
  | Some _ =>
      t <- lift m (prot_type m) ;;
      if ptype_eqb t PT_STFL then
        match m_extra m with
        | [] => raise m EPyAsn1
        | c :: _ =>
            s <- get ;;
            match stfl_state s c with
            | None => raise m EBadMessageCheck
            | Some _ => sig <- octets m (m_prot m) ;; i <- lift m (sig_index c sig) ;; stfl_use c i
            end
        end
      else ret tt
  end.

(** mock_ca/stfl_validator.py 202-236 (STFLPKIMessageValidator.process_stfl_after_request)
    with [confirmed = True]; [i] is the index of the first certificate of [certs]. *)
Fixpoint stfl_after (m : msg) (certs : list cert) (i : nat) : M unit :=
  match certs with
  | [] => ret tt
  | c :: certs' =>
      (if is_stfl c then
         match nth_error (m_reqs m) i with
         | None => raise m EIndexError
         | Some q => o <- lift m (popo_index (q_popo q)) ;;
                     match o with Some idx => stfl_add m c idx | None => ret tt end
         end
       else ret tt) ;;;
      stfl_after m certs' (S i)
  end.

(* ------------------------------------------------------------------ *)
(** ** Protection (mock_ca/prot_handler.py 71-1015 (ProtectionHandler)) *)

(** exception conversion of mock_ca/prot_handler.py 694-702 *)
Definition sig_errors {A} (p : M A) : M A :=
  catch p (fun e m => match e with
                      | EBadSigAlgID | EInvalidSignature | EValueError => Some (raise m EBadMessageCheck)
                      | _ => None
                      end).

(** mock_ca/prot_handler.py 631-705 (ProtectionHandler.validate_signature_protection).
    mock_ca/prot_handler.py 541-570 (ProtectionHandler.validate_signer_for_ccr) and
    mock_ca/prot_handler.py 807-861 (ProtectionHandler.check_signer_is_trusted) are [v_ccr] and [v_trust]. *)
Definition validate_signature (v : env) (m : msg) (exclude : bool) : M unit :=
  match m_extra m with
  | [] => raise m EBadMessageCheck
  | c :: _ =>
      (if body_eqb (m_body m) B_ccr then lift m (v_ccr v m) else ret tt) ;;;
      sig_errors (
        t <- lift m (prot_type m) ;;
        (if ptype_eqb t PT_STFL then stfl_check m (c_prot_ccr cfg) (c_prot_burn cfg) exclude else ret tt) ;;;
        lift m (v_sig v m) ;;;
        if negb (c_prot_burn cfg) && ptype_eqb t PT_STFL then
          sig <- octets m (m_prot m) ;;
          s <- get ;;
          match stfl_state s c with
          | None => raise m EBadRequest
          | Some _ => i <- lift m (sig_index c sig) ;; stfl_use c i
          end
        else ret tt) ;;;
      lift m (v_trust v m)
  end.

(** mock_ca/prot_handler.py 707-756 (ProtectionHandler.validate_protection) *)
Definition validate_protection (v : env) (m : msg) (exclude : bool) : M unit :=
  match m_alg m with
  | None => raise m EBadMessageCheck
  | Some _ =>
      t <- lift m (prot_type m) ;;
      lift m (wrong_integrity m) ;;;
      match t with
      | PT_KEM => kem_verify v m
      | PT_DH => lift m (v_sig v m) ;;; lift m (v_trust v m)
      | PT_MAC => if body_eqb (m_body m) B_rr then raise m EWrongIntegrity else lift m (v_sig v m)
      | _ => validate_signature v m exclude
      end
  end.

(** mock_ca/ca_handler.py 554-581 (CAHandler.verify_protection) with [must_be_protected = True] *)
Definition verify_protection (v : env) (m : msg) : M unit :=
  match m_alg m with
  | Some oid => if v_alg_ok v oid then ret tt else raise m EBadAlg
  | None => ret tt
  end ;;;
  p <- lift m (protection_present m true) ;;
  if p then
    stfl_validate m ;;;
    t <- lift m (prot_type m) ;;
    if ptype_eqb t PT_KEM then kem_verify v m else validate_protection v m true
  else ret tt.

(** mock_ca/prot_handler.py 894-923 (ProtectionHandler.check_correct_prot_type) *)
Definition correct_prot_type (m : msg) (must : bool) : result unit :=
  let is_prot := match m_alg m with Some _ => true | None => false end in
  if negb must && negb (body_in (m_body m) [B_rr; B_kur; B_ccr]) && negb is_prot then Ok tt
  else if negb is_prot && must then Err EBadMessageCheck
  else let! t := prot_type m in
       if ptype_eqb t PT_MAC && body_in (m_body m) [B_rr; B_kur; B_ccr] then Err EWrongIntegrity
       else Ok tt.

(** mock_ca/prot_handler.py 863-891 (ProtectionHandler.verify_added_protection) (argument: the inner message) *)
Definition verify_added_protection (v : env) (inner : msg) (must : bool) : M unit :=
  lift inner (correct_prot_type inner must) ;;;
  (if body_in (m_body inner) [B_rr; B_kur; B_ccr] then validate_protection v inner false
   else match m_alg inner with Some _ => validate_protection v inner false | None => ret tt end) ;;;
  lift inner (v_orig v inner).

(** mock_ca/prot_handler.py 925-981 (ProtectionHandler.verify_inner_batch_pkimessage);
    re-raised exceptions lose the BodyRelevantError class. *)
Definition verify_inner_batch (v : env) (inner : msg) (must : bool) : M unit :=
  lift inner (correct_prot_type inner must) ;;;
  match m_alg inner with
  | None => ret tt
  | Some _ =>
      catch (validate_protection v inner false)
        (fun e m => match e with
                    | EBadMessageCheck => Some (raise m EBadMessageCheck)
                    | _ => if is_cmp e then Some (raise m ECMPTestSuite) else None
                    end)
  end.

(** mock_ca/prot_handler.py 983-1015 (ProtectionHandler.verify_nested_protection) *)
Definition verify_nested (v : env) (m : msg) : M unit :=
  t <- lift m (prot_type m) ;;
  if ptype_eqb t PT_MAC then raise m EWrongIntegrity
  else match m_extra m with
       | [] => raise m EBadMessageCheck
       | _ => lift m (v_nested_trust v m) ;;;
              validate_signature v m false ;;;
              match m_inner m with [] => raise m EBadRequest | _ => ret tt end
       end.

(* ------------------------------------------------------------------ *)
(** ** Responses *)

(** resources/ca_ra_utils.py 2214-2241 (set_ca_header_fields): the response echoes the
    transaction id and the sender nonce; both must be present. *)
Definition ca_header (m : msg) : M (bytes * bytes) :=
  n <- octets m (m_snonce m) ;; t <- octets m (m_tx m) ;; ret (t, n).

Definition resp_snonce (v : env) (m : msg) : bytes :=
  match m_rnonce m with Some n => n | None => v_nonce v m end.

Definition reply_to (v : env) (m : msg) (b : body) (ok : bool) (f : option exn)
           (certs : list cert) : M resp :=
  h <- ca_header m ;;
  ret {| r_body := b; r_ok := ok; r_fail := f; r_tx := Some (fst h); r_rnonce := Some (snd h);
         r_snonce := resp_snonce v m; r_certs := certs; r_implicit := false; r_inner := [] |}.

(** resources/ca_ra_utils.py 3284-3304 (get_correct_ca_body_name) *)
Definition resp_body (b : body) : body :=
  match b with
  | B_ir => B_ip | B_cr | B_p10cr => B_cp | B_kur => B_kup | B_ccr => B_ccp | _ => B_error
  end.

(** mock_ca/ca_handler.py 123-156 (_build_error_from_exception) *)
Definition error_resp (v : env) (m : msg) (e : exn) : resp :=
  {| r_body := B_error; r_ok := false; r_fail := Some e; r_tx := m_tx m; r_rnonce := m_snonce m;
     r_snonce := v_nonce v m; r_certs := []; r_implicit := false; r_inner := [] |}.

(** Protecting a response keeps its contents and may fail. *)
Definition protect (v : env) (m : msg) (r : resp) : M resp := lift m (v_protect v m r) ;;; ret r.

(* ------------------------------------------------------------------ *)
(** ** MockCAState *)

Definition lift_db (m : msg) (f : cert_db -> result cert_db) : M unit :=
  fun s => match f (s_db s) with
           | Ok d => (set_db s d, ROk tt)
           | Err e => (s, RErr e m)
           end.

(** mock_ca/mock_fun.py 1395-1410 (MockCAState.store_transaction_certificate) *)
Definition store_tx (m : msg) (certs : list cert) : M unit :=
  tx <- octets m (m_tx m) ;;
  s <- get ;;
  if mem tx (s_ids s) then raise m ETransactionIdInUse
  else modify (fun s => set_tx s (s_ids s ++ [tx])
                               (dset pair_eqb (tx, m_sender m) certs (s_txcerts s))).

(** mock_ca/mock_fun.py 1369-1376 (MockCAState.add_tx_id) (not called by the modelled handlers) *)
Definition add_tx_id (m : msg) (tx : bytes) : M unit :=
  s <- get ;;
  if mem tx (s_ids s) then raise m ETransactionIdInUse
  else modify (fun s => set_tx s (s_ids s ++ [tx]) (s_txcerts s)).

(** mock_ca/mock_fun.py 1378-1383 (MockCAState.remove_tx_id) (never called in the repository):
    a set; [set.remove] raises a KeyError when the element is missing. *)
Fixpoint remove_first (x : bytes) (l : list bytes) : option (list bytes) :=
  match l with
  | [] => None
  | y :: l' => if bytes_eqb x y then Some l' else option_map (cons y) (remove_first x l')
  end.
Definition remove_tx_id (m : msg) (tx : bytes) : M unit :=
  s <- get ;;
  match remove_first tx (s_ids s) with
  | None => raise m EKeyError
  | Some l => modify (fun s => set_tx s l (s_txcerts s))
  end.

(** mock_ca/mock_fun.py 1451-1463 (MockCAState.add_certs) *)
Fixpoint add_certs (v : env) (m : msg) (certs : list cert) (confirmed : bool) : M unit :=
  match certs with
  | [] => ret tt
  | c :: certs' =>
      lift_db m (fun d => add_cert H d c (if confirmed then CONFIRMED else NOT_CONFIRMED) (v_now v)) ;;;
      add_certs v m certs' confirmed
  end.

(** mock_ca/mock_fun.py 1469-1493 (MockCAState.add_may_update_cert) *)
Definition add_may_update (v : env) (m : msg) (old new : cert) (confirmed : bool) : M unit :=
  lift_db m (fun d => change_cert_state H d old
                        (if confirmed then UPDATED else UPDATED_BUT_NOT_CONFIRMED)
                        None (Some new) (v_now v)).

(** mock_ca/mock_fun.py 1351-1367 (MockCAState.contains_pub_key) *)
Definition contains_pub_key (s : ca) (k : pubkey) (who : bytes) : bool :=
  ksc_contains subject key_of (issued_certs (s_db s)) [] (not_confirmed_certs (s_db s)) k who.

(* ------------------------------------------------------------------ *)
(** ** Certificate requests (mock_ca/cert_req_handler.py 92-728 (CertReqHandler)) *)

(** mock_ca/cert_req_handler.py 189-209 (CertReqHandler.is_certificate_in_list) *)
Definition template_in_list (q : creq) (l : list cert) : bool :=
  match q_key q with
  | None => false
  | Some k => existsb (fun c => bytes_eqb (subject c) (q_subject q) && pubkey_eqb (key_of c) k) l
  end.

(** mock_ca/cert_req_handler.py 211-260 (CertReqHandler.check_same_key_cert_request) with the
    default configuration ([allow_same_key_* = False]) *)
Definition same_key_check (s : ca) (m : msg) : result unit :=
  match m_body m with
  | B_p10cr =>
      match m_reqs m with
      | [] => Ok tt
      | q :: _ =>
          match q_key q with
          | None => Ok tt
          | Some k =>
              if contains_pub_key s k (q_subject q) then Err EBadCertTemplate
              else match q_delta q with
                   | Some k' => if contains_pub_key s k' (q_subject q) then Err EBadCertTemplate else Ok tt
                   | None => Ok tt
                   end
          end
      end
  | _ =>
      guard (forallb (fun q =>
               negb (template_in_list q (issued_certs (s_db s)))
               && negb (match q_key q with
                        | Some k => contains_pub_key s k (q_subject q)
                        | None => false end)) (m_reqs m)) EBadCertTemplate
  end.

(** mock_ca/cert_req_handler.py 645-656 (CertReqHandler.check_cert_is_updated) *)
Definition cert_is_updated (v : env) (m : msg) (s : ca) : result unit :=
  match m_extra m with
  | [] => Ok tt
  | c :: _ => validate_is_updated H (s_db s) (m_body m) c (negb (body_eqb (m_body m) B_kur)) (v_now v)
  end.

(** mock_ca/cert_req_handler.py 375-394 (CertReqHandler.check_signer_is_a_issued_cert) *)
Definition signer_is_issued (m : msg) (s : ca) : result unit :=
  match m_alg m with
  | None => Ok tt
  | Some _ =>
      let! t := prot_type m in
      match m_extra m with
      | [] => Ok tt
      | c :: _ => if negb (ptype_eqb t PT_MAC)
                  then match get_cert H (s_db s) c with Some _ => Ok tt | None => Err ENotAuthorized end
                  else Ok tt
      end
  end.

(** mock_ca/cert_req_handler.py 529-549 (CertReqHandler.check_if_used) *)
Definition check_if_used (m : msg) (enc : bool) : bool :=
  match m_body m with
  | B_p10cr | B_ccr | B_krp => m_implicit m
  | B_ir | B_cr | B_kur => m_implicit m && negb enc
  | _ => false
  end.

Definition with_implicit (r : resp) : resp :=
  {| r_body := r_body r; r_ok := r_ok r; r_fail := r_fail r; r_tx := r_tx r; r_rnonce := r_rnonce r;
     r_snonce := r_snonce r; r_certs := r_certs r; r_implicit := true; r_inner := r_inner r |}.

(** mock_ca/cert_conf_handler.py 47-53 (CertConfState.add_confirmed_cert) *)
Definition conf_add_confirmed (m : msg) : M unit :=
  match m_tx m with
  | None => raise m EBadRequest
  | Some tx => modify (fun s => set_conf s (s_ccerts s) (s_cresp s) (s_creq s) (s_confirmed s ++ [tx]))
  end.

(** mock_ca/cert_conf_handler.py 132-138 (CertConfState.add_request),
    mock_ca/cert_conf_handler.py 72-79 (CertConfState.add_response) *)
Definition conf_add (m : msg) (r : resp) (certs : list cert) : M unit :=
  match m_tx m with
  | None => raise m EBadRequest
  | Some tx =>
      modify (fun s => set_conf s (s_ccerts s) (s_cresp s) (dset bytes_eqb tx m (s_creq s)) (s_confirmed s)) ;;;
      match r_tx r with
      | None => raise m EBadRequest
      | Some tx' => modify (fun s => set_conf s (dset bytes_eqb tx' certs (s_ccerts s))
                                              (dset bytes_eqb tx' r (s_cresp s)) (s_creq s) (s_confirmed s))
      end
  end.

(** mock_ca/cert_req_handler.py 283-340 (CertReqHandler.process_after_request) *)
Definition process_after (v : env) (m : msg) (r : resp) (enc : bool) : M resp :=
  if negb (body_in (r_body r) [B_ip; B_cp; B_ccp; B_kup]) then ret r
  else if negb (r_ok r) then ret r
  else
    let certs := r_certs r in
    let confirm := check_if_used m enc in
    store_tx m certs ;;;
    let r' := if confirm then with_implicit r else r in
    (if confirm && body_eqb (r_body r) B_ccp
     then modify (fun s => set_cross s (s_cross s ++ certs)) else ret tt) ;;;
    (if body_eqb (r_body r) B_kup then
       match m_extra m with
       | [] => raise m EPyAsn1
       | old :: _ => match certs with
                     | [] => raise m EIndexError
                     | new :: _ => add_may_update v m old new confirm
                     end
       end
     else ret tt) ;;;
    (if confirm then
       add_certs v m certs true ;;;
       conf_add_confirmed m ;;;
       stfl_after m certs 0
     else
       add_certs v m certs false ;;;
       conf_add m r' certs) ;;;
    ret r'.

(** Building the certificate response: [build_ip_cmp_message], [build_cp_cmp_message],
    [build_cp_from_p10cr], [build_kup_from_kur], [build_ccp_from_ccr]
    (resources/ca_ra_utils.py) are the environment's [v_issue]. *)
Definition issue (v : env) (m : msg) : M (resp * bool) :=
  o <- lift m (v_issue v m) ;;
  match o with
  | (ok, certs, enc) =>
      r <- reply_to v m (resp_body (m_body m)) ok (if ok then None else Some ECMPTestSuite) certs ;;
      ret (r, enc)
  end.

(** mock_ca/cert_req_handler.py 456-515 (CertReqHandler.process_kur) (checks before issuing) *)
Definition kur_checks (v : env) (m : msg) : M unit :=
  match m_alg m with
  | None => raise m EBadMessageCheck
  | Some _ =>
      t <- lift m (prot_type m) ;;
      if ptype_eqb t PT_MAC then raise m EWrongIntegrity
      else
        s <- get ;;
        lift m (signer_is_issued m s) ;;;
        if ptype_eqb t PT_KEM then
          tx <- octets m (m_tx m) ;;
          (match kem_find (s_kem s) tx with
           | Some k => lift m (v_kem v m (ke_ss k))
           | None => raise m EValueError
           end) ;;;
          match m_extra m with [] => raise m EBadRequest | _ => ret tt end
        else lift m (v_sig v m)
  end.

(** mock_ca/cert_req_handler.py 346-373 (CertReqHandler.process_ir),
    mock_ca/cert_req_handler.py 396-422 (CertReqHandler.process_cr),
    mock_ca/cert_req_handler.py 424-454 (CertReqHandler.process_p10cr),
    mock_ca/cert_req_handler.py 713-728 (CertReqHandler.handle_cross_cert_req), and the dispatch.
    [process_p10cr] ignores the result of its compromised-key check. *)
Definition process_by_body (v : env) (m : msg) : M resp :=
  (match m_body m with
   | B_cr => s <- get ;; lift m (signer_is_issued m s)
   | B_kur => kur_checks v m
   | _ => ret tt
   end) ;;;
  x <- issue v m ;;
  process_after v m (fst x) (snd x).

Definition is_cert_req (b : body) : bool := body_in b [B_ir; B_cr; B_p10cr; B_kur; B_ccr].

(** mock_ca/cert_req_handler.py 658-711 (CertReqHandler.process_cert_request) *)
Definition process_cert_request (v : env) (m : msg) (must : bool) : M resp :=
  lift m (validate_header v m must false) ;;;
  if negb (is_cert_req (m_body m)) then raise m ENotImplemented
  else
    catch (lift m (wrong_integrity m) ;;;
           s <- get ;;
           lift m (same_key_check s m) ;;;
           lift m (cert_is_updated v m s) ;;;
           lift m (v_orig v m) ;;;
           process_by_body v m)
          (fun e _ =>
             match e with
             | ETransactionIdInUse => Some (reply_to v m B_error false (Some e) [])
             | _ => if is_cmp e
                    then Some (reply_to v m (resp_body (m_body m)) false (Some e) [])
                    else None
             end).

(* ------------------------------------------------------------------ *)
(** ** Certificate confirmation (mock_ca/cert_conf_handler.py 202-418 (CertConfHandler)) *)

(** mock_ca/cert_conf_handler.py 158-191 (CertConfState.validate_nonces) *)
Definition conf_nonces (m req : msg) (r : resp) : result unit :=
  match m_snonce m with
  | None => Err EBadSenderNonce
  | Some sn =>
      match m_rnonce m with
      | None => Err EBadRecipientNonce
      | Some rn =>
          match m_snonce req with
          | None => Err EPyAsn1
          | Some rsn =>
              if negb (bytes_eqb (r_snonce r) rn) then Err EBadRecipientNonce
              else match r_rnonce r with
                   | None => Err EPyAsn1
                   | Some rrn =>
                       if negb (bytes_eqb rsn rrn) then Err EException
                       else if negb (length sn =? 16)%nat then Err EBadSenderNonce
                       else if bytes_eqb sn rsn && c_fresh cfg then Err EBadSenderNonce
                       else if negb (bytes_eqb sn rsn) && negb (c_fresh cfg) then Err EBadSenderNonce
                       else Ok tt
                   end
          end
      end
  end.

(** mock_ca/cert_conf_handler.py 275-285 (CertConfHandler._confirm_cert) *)
Definition same_signer (a b : option cert) : result unit :=
  match a, b with
  | Some _, None => Err EWrongIntegrity
  | None, Some _ => Err EWrongIntegrity
  | Some x, Some y => if cert_eqb x y then Ok tt else Err EWrongAuthority
  | None, None => Ok tt
  end.

(** mock_ca/cert_conf_handler.py 287-328 (CertConfHandler._verify_protection) *)
Definition conf_protection (m req : msg) : result unit :=
  if negb (c_must_prot cfg)
     && match m_alg req with None => true | _ => false end
     && match m_alg m with None => true | _ => false end
  then Ok tt
  else
    let! t := prot_type req in
    match m_alg m with
    | None => Err EBadMessageCheck
    | Some oid =>
        let! t' := prot_type m in
        if negb (ptype_eqb t t') then Err EWrongIntegrity
        else
          let! _ := (match t with
                     | PT_TRAD | PT_PQ | PT_COMP | PT_DH =>
                         same_signer (hd_error (m_extra req)) (hd_error (m_extra m))
                     | _ => Ok tt
                     end) in
          if ptype_eqb t PT_MAC && c_same_alg cfg
             && negb (match m_alg req with Some o => bytes_eqb oid o | None => false end)
          then Err EBadMessageCheck else Ok tt
    end.

(** resources/ca_ra_utils.py 3115-3134 (_validate_cert_status) *)
Definition check_status (st : cstatus) : result unit :=
  match st with
  | CS_absent | CS_rejection | CS_accepted false => Ok tt
  | CS_accepted true | CS_other => Err EBadRequest
  end.

(** resources/ca_ra_utils.py 3181-3280 (build_pki_conf_from_cert_conf): one loop iteration.
    [conf_digest] is resources/ca_ra_utils.py 3137-3177 (_process_cert_hash_alg) followed by the hash. *)
Definition check_entry (pvno : Z) (k : centry) (c : cert) : result unit :=
  if negb (k_id k =? 0) then Err EBadRequest
  else match k_hash k with
       | None => Err EBadPOP
       | Some h =>
           let! _ := check_status (k_status k) in
           match k_status k with
           | CS_rejection => Ok tt
           | _ => let! d := conf_digest (k_alg k) pvno c in
                  if bytes_eqb h d then Ok tt else Err EBadCertId
           end
       end.

Fixpoint check_entries (pvno : Z) (ks : list centry) (cs : list cert) : result unit :=
  match ks, cs with
  | k :: ks', c :: cs' => let! _ := check_entry pvno k c in check_entries pvno ks' cs'
  | _, _ => Ok tt
  end.

Definition pki_conf_checks (m : msg) (issued : list cert) : result unit :=
  if negb (length (m_conf m) =? 1)%nat then Err EBadRequest
  else if negb (length (m_conf m) =? length issued)%nat then Err EValueError
  else check_entries (m_pvno m) (m_conf m) issued.

(** The loop over the issued certificates, mock_ca/cert_conf_handler.py 371-376, with
    mock_ca/cert_conf_handler.py 390-409 (CertConfHandler._may_add_stfl_confirmed_cert); every
    certificate is passed on as a list of one, so its POPO index is read from entry 0. *)
Fixpoint confirm_certs (v : env) (m req : msg) (certs : list cert) : M unit :=
  match certs with
  | [] => ret tt
  | c :: certs' =>
      lift_db m (fun d => change_cert_state H d c CONFIRMED None None (v_now v)) ;;;
      (if is_stfl c then
         if body_in (m_body req) [B_ir; B_cr; B_kur; B_p10cr; B_ccr; B_krr]
         then stfl_after req [c] 0 else ret tt
       else ret tt) ;;;
      confirm_certs v m req certs'
  end.

(** mock_ca/cert_conf_handler.py 59-70 (CertConfState.remove_request) *)
Definition remove_request (m : msg) : M unit :=
  match m_tx m with
  | None => raise m EBadRequest
  | Some tx =>
      modify (fun s => set_conf s (s_ccerts s) (ddel bytes_eqb tx (s_cresp s))
                                (ddel bytes_eqb tx (s_creq s)) (s_confirmed s ++ [tx])) ;;;
      s <- get ;;
      match dget bytes_eqb tx (s_ccerts s) with
      | None => raise m EKeyError
      | Some _ => modify (fun s => set_conf s (ddel bytes_eqb tx (s_ccerts s)) (s_cresp s)
                                            (s_creq s) (s_confirmed s))
      end
  end.

(** mock_ca/cert_conf_handler.py 330-388 (CertConfHandler.process_cert_conf), including the
    appending of a cross certificate done by its callers
    (mock_ca/ca_handler.py 871-880 (CAHandler.process_cert_conf)). *)
Definition process_cert_conf (v : env) (m : msg) : M resp :=
  match m_tx m with
  | None => raise m EBadRequest
  | Some tx =>
      s <- get ;;
      if mem tx (s_confirmed s) then raise m ECertConfirmed
      else match dget bytes_eqb tx (s_creq s) with
      | None => raise m EBadRequest
      | Some req =>
          match m_snonce m, m_rnonce m with
          | None, _ => raise m EBadSenderNonce
          | Some _, None => raise m EBadRecipientNonce
          | Some _, Some _ =>
              match dget bytes_eqb tx (s_cresp s) with
              | None => raise m EBadRequest
              | Some r =>
                  lift m (conf_nonces m req r) ;;;
                  lift m (conf_protection m req) ;;;
                  lift m (v_conf v m) ;;;
                  match dget bytes_eqb tx (s_ccerts s) with
                  | None => raise m EBadRequest
                  | Some [] => raise m ECertConfirmed
                  | Some (c0 :: cs) =>
                      lift m (pki_conf_checks m (c0 :: cs)) ;;;
                      rep <- reply_to v m B_pkiconf true None [] ;;
                      (if body_eqb (r_body r) B_kup then
                         match m_extra req with
                         | [] => raise m EPyAsn1
                         | old :: _ =>
                             lift_db m (fun d => change_cert_state H d old UPDATED None None (v_now v))
                         end
                       else ret tt) ;;;
                      confirm_certs v m req (c0 :: cs) ;;;
                      remove_request m ;;;
                      (if body_eqb (r_body r) B_ccp
                       then modify (fun s => set_cross s (s_cross s ++ [c0])) else ret tt) ;;;
                      ret rep
                  end
              end
          end
      end
  end.

(* ------------------------------------------------------------------ *)
(** ** Revocation (mock_ca/rev_handler.py 83-454 (RevocationHandler)) *)

(** mock_ca/rev_handler.py 114-120 (RevocationHandler.is_revoked) *)
Definition is_revoked (s : ca) (c : cert) : bool := state_eqb (get_cert_state H (s_db s) c) REVOKED.

(** mock_ca/rev_handler.py 163-195 (RevocationHandler.is_not_allowed_to_request);
    [trusted_rev_certs] is [None] at every call site. *)
Definition not_allowed (v : env) (m : msg) (c : cert) (s : ca) : result unit :=
  if negb (body_eqb (m_body m) B_rr) then
    if is_revoked s c then Err ECertRevoked
    else validate_is_updated H (s_db s) (m_body m) c false (v_now v)
  else if state_eqb (get_cert_state H (s_db s) c) UPDATED_BUT_NOT_CONFIRMED
       then Err EBadRequest else Ok tt.

(** mock_ca/rev_handler.py 415-450 (RevocationHandler.verify_protection): the KEM branch reads
    the secret without looking at its "used" flag; DH and signatures are [v_rr]. *)
Definition rr_protection (v : env) (m : msg) (ss : option bytes) : result unit :=
  match m_prot m, m_alg m with
  | None, _ => Err EBadMessageCheck
  | _, None => Err EBadMessageCheck
  | Some _, Some _ =>
      let! t := prot_type m in
      if ptype_eqb t PT_KEM then
        match ss with
        | None => Err EBadRequest
        | Some k => let! _ := v_kem v m k in
                    match m_extra m with [] => Err EBadRequest | _ => v_rr v m end
        end
      else if ptype_eqb t PT_MAC then Err EWrongIntegrity
      else v_rr v m
  end.

(** resources/ca_ra_utils.py 3337-3356 (_contains_cert_template) *)
Definition find_template (t : bytes) (certs : list cert) : option cert := find (tmpl_match t) certs.

(** resources/ca_ra_utils.py 3499-3551 (validate_rev_details),
    resources/ca_ra_utils.py 3480-3495 (_check_cert_for_revive) and _check_cert_for_revoked *)
Definition rev_details (d : rdetail) (issued revoked : list cert) : result (reason * cert) :=
  let! _ := d_fields d in
  match find_template (d_template d) issued with
  | None => Err EBadCertId
  | Some c =>
      let! r := d_reason d in
      if is_remove r then if existsb (cert_eqb c) revoked then Ok (r, c) else Err EBadCertId
      else if existsb (cert_eqb c) revoked then Err ECertRevoked else Ok (r, c)
  end.

(** resources/ca_ra_utils.py 3557-3680 (build_rp_from_rr) with [enforce_lwcmp] and [verify=False]:
    exactly one entry; an entry that fails becomes a "rejection" status. *)
Definition build_rp (m : msg) (issued revoked : list cert) : result (result (reason * cert)) :=
  match m_rr m with
  | [d] => match rev_details d issued revoked with
           | Ok x => Ok (Ok x)
           | Err e => if is_cmp e then Ok (Err e) else Err e
           end
  | _ => Err EBadRequest
  end.

Definition mark_revoked (v : env) (m : msg) (c : cert) (r : reason) : M unit :=
  lift_db m (fun d => change_cert_state H d c REVOKED
                        (Some {| re_reason := r; re_cert := c; re_hash := None; re_date := Some (v_now v) |})
                        None (v_now v)).
Definition revive (v : env) (m : msg) (c : cert) : M unit :=
  lift_db m (fun d => change_cert_state H d c REVIVED None None (v_now v)).

(** mock_ca/rev_handler.py 55-80 (_build_rp_error_response) *)
Definition rp_error (v : env) (m : msg) (e : exn) : M resp := reply_to v m B_rp false (Some e) [].

(** exception handlers of mock_ca/rev_handler.py 321-386 (RevocationHandler.process_revocation_request) *)
Definition rp_catch (v : env) (m : msg) (p : M resp) : M resp :=
  catch p (fun e _ => match e with
                      | EInvalidSignature | EValueError => Some (rp_error v m EBadMessageCheck)
                      | _ => if is_cmp e then Some (rp_error v m e) else None
                      end).

(** mock_ca/rev_handler.py 274-305 (RevocationHandler._handle_revive_request) for a revoked signer,
    i.e. mock_ca/rev_handler.py 247-272 (RevocationHandler._handle_self_revive_request) *)
Definition self_revive (v : env) (m : msg) (c : cert) : M resp :=
  rp_catch v m (
    s <- get ;;
    match get_cert H (s_db s) c with
    | None => raise m EBadCertId
    | Some e =>
        o <- lift m (build_rp m [e_cert e] (revoked_certs (s_db s))) ;;
        match o with
        | Ok _ => revive v m (e_cert e) ;;; reply_to v m B_rp true None []
        | Err x => reply_to v m B_rp false (Some x) []
        end
    end).

(** mock_ca/rev_handler.py 321-386 (RevocationHandler.process_revocation_request) *)
Definition process_rr (v : env) (m : msg) : M resp :=
  s <- get ;;
  tx <- (match s_kem s with [] => ret None | _ => t <- octets m (m_tx m) ;; ret (Some t) end) ;;
  let ss := match tx with
            | Some t => option_map ke_ss (kem_find (s_kem s) t)
            | None => None
            end in
  rp_catch v m (
    lift m (rr_protection v m ss) ;;;
    lift m (request_nonces m) ;;;
    match m_extra m with
    | [] => raise m EBadMessageCheck
    | c :: _ =>
        match m_rr m with
        | [] => raise m EIndexError
        | d :: _ =>
            r <- lift m (d_reason d) ;;
            if is_revoked s c && negb (is_remove r) then raise m ECertRevoked
            else
              lift m (validate_is_updated H (s_db s) B_rr c false (v_now v)) ;;;
              if is_remove r && is_revoked s c then self_revive v m c
              else
                o <- lift m (build_rp m (issued_certs (s_db s)) (revoked_certs (s_db s))) ;;
                match o with
                | Ok (_, tgt) =>
                    (if is_remove r then revive v m tgt else mark_revoked v m tgt r) ;;;
                    reply_to v m B_rp true None []
                | Err x => reply_to v m B_rp false (Some x) []
                end
        end
    end).

(* ------------------------------------------------------------------ *)
(** ** POP challenges (mock_ca/challenge_handler.py 34-175 (ChallengeHandler)) *)

(** mock_ca/challenge_handler.py 102-123 (ChallengeHandler._process_challenge) *)
Definition process_challenge (v : env) (m : msg) : M resp :=
  n <- lift m (v_chal v m) ;;
  tx <- octets m (m_tx m) ;;
  match m_reqs m with
  | [] => raise m EIndexError
  | q :: _ =>
      r <- reply_to v m B_popdecc true None [] ;;
      modify (fun s => set_chal s (dset chal_eqb (n, tx) (q_template q, m_body m) (s_chal s))) ;;;
      ret r
  end.

(** The loop of mock_ca/challenge_handler.py 125-161 (ChallengeHandler._process_popdecr) *)
Fixpoint popdecr_loop (v : env) (m : msg) (tx : bytes) (ns : list Z) (b : option body)
         (acc : list cert) : M (option body * list cert) :=
  match ns with
  | [] => ret (b, acc)
  | n :: ns' =>
      s <- get ;;
      match dget chal_eqb (n, tx) (s_chal s) with
      | None => raise m EBadRequest
      | Some (t, bd) =>
          c <- lift m (v_build v t) ;;
          modify (fun s => set_chal s (ddel chal_eqb (n, tx) (s_chal s))) ;;;
          popdecr_loop v m tx ns' (match b with None => Some bd | Some _ => b end) (acc ++ [c])
      end
  end.

(** mock_ca/challenge_handler.py 125-161 (ChallengeHandler._process_popdecr).  The certificate
    list returned by [build_ip_cmp_message(request, responses=...)] is empty
    (resources/ca_ra_utils.py 2780-2782), so the caller's [state.add_certs]
    records nothing. *)
Definition process_popdecr (v : env) (m : msg) : M resp :=
  tx <- octets m (m_tx m) ;;
  x <- popdecr_loop v m tx (m_popdecr m) None [] ;;
  match fst x with
  | Some B_ir =>
      lift m (v_pop_resp v m) ;;;
      r <- reply_to v m B_ip true None (snd x) ;;
      add_certs v m [] true ;;;
      ret r
  | _ => raise m ENotImplemented
  end.

(* ------------------------------------------------------------------ *)
(** ** Nested messages (mock_ca/nested_handler.py 27-323 (NestedHandler),
    [allow_inner_unprotected = True], [check_sender = False]) *)

Definition opt_bytes_eqb (a b : option bytes) : bool :=
  match a, b with Some x, Some y => bytes_eqb x y | None, None => true | _, _ => false end.
Definition len16 (b : bytes) : bool := (length b =? 16)%nat.

(** resources/checkutils.py 2145-2241 (validate_add_protection_tx_id_and_nonces) *)
Definition added_ids (outer : msg) : result msg :=
  match m_inner outer with
  | [] => Err EValueError
  | inner :: rest =>
      match rest with
      | _ :: _ => Err EValueError
      | [] =>
          match m_snonce outer with
          | None => Err EBadSenderNonce
          | Some osn =>
              match m_tx outer, m_tx inner with
              | None, _ => Err EBadDataFormat
              | _, None => Err EBadDataFormat
              | Some otx, Some itx =>
                  if negb (bytes_eqb itx otx) then Err EBadRequest
                  else match m_snonce inner with
                       | None => Err EBadSenderNonce
                       | Some isn =>
                           if negb (bytes_eqb isn osn) then Err EBadSenderNonce
                           else
                             let! rn :=
                               (if body_eqb (m_body inner) B_certConf then
                                  match m_rnonce outer, m_rnonce inner with
                                  | Some o, Some i => if bytes_eqb i o then Ok (Some o) else Err EBadRecipientNonce
                                  | _, _ => Err EBadRecipientNonce
                                  end
                                else match m_rnonce inner, m_rnonce outer with
                                     | None, None => Ok None
                                     | _, _ => Err EBadRecipientNonce
                                     end) in
                             if negb (len16 itx) then Err EBadRequest
                             else if negb (len16 osn) then Err EBadSenderNonce
                             else match rn with
                                  | Some r => if len16 r then Ok inner else Err EBadRecipientNonce
                                  | None => Ok inner
                                  end
                       end
              end
          end
      end
  end.

(** mock_ca/nested_handler.py 72-119 (NestedHandler._process_added_protection_request) *)
Definition process_added (v : env) (outer : msg) : M resp :=
  inner <- lift outer (added_ids outer) ;;
  lift inner (protection_present inner false) ;;;
  verify_added_protection v inner false ;;;
  r <- (if is_cert_req (m_body inner) then process_cert_request v inner false
        else if body_eqb (m_body inner) B_certConf then process_cert_conf v inner
        else raise outer EBadRequest) ;;
  protect v inner r.

Fixpoint all_some (l : list (option bytes)) : option (list bytes) :=
  match l with
  | [] => Some []
  | Some x :: l' => match all_some l' with Some t => Some (x :: t) | None => None end
  | None :: _ => None
  end.

Fixpoint uniq (l : list bytes) : bool :=
  match l with [] => true | x :: l' => negb (mem x l') && uniq l' end.

(** resources/checkutils.py 2060-2142 (validate_nested_message_unique_nonces_and_ids) with the
    arguments used by mock_ca/nested_handler.py 214-233 (NestedHandler._check_nonces)
    (ids and sender nonces unique, recipient nonces unchecked, lengths checked) *)
Definition batch_ids (m : msg) : result unit :=
  match m_tx m, m_snonce m with
  | None, _ => Err EBadDataFormat
  | _, None => Err EBadSenderNonce
  | Some tx, Some sn =>
      match all_some (map m_tx (m_inner m)), all_some (map m_snonce (m_inner m)) with
      | None, _ => Err EBadDataFormat
      | _, None => Err EBadSenderNonce
      | Some ids, Some sns =>
          let! _ := guard (uniq (tx :: ids)) EBadRequest in
          let! _ := guard (uniq (sn :: sns)) EBadSenderNonce in
          let! _ := guard (forallb len16 (tx :: ids)) EBadRequest in
          guard (forallb len16 (sn :: sns)) EBadSenderNonce
      end
  end.

(** mock_ca/nested_handler.py 214-233 (NestedHandler._check_nonces) *)
Definition batch_checks (m : msg) : result unit :=
  let! _ := batch_ids m in
  let names := map m_body (m_inner m) in
  if existsb (body_eqb B_certConf) names
  then guard (forallb (body_eqb B_certConf) names) EBadRequest
  else match m_rnonce m with Some _ => Err EBadRecipientNonce | None => Ok tt end.

(** One iteration of the loop of mock_ca/nested_handler.py 235-323 (NestedHandler.process_batched_request).
    The protection of a batched [certConf] is not verified. *)
Definition batch_entry (v : env) (e : msg) : M resp :=
  if body_eqb (m_body e) B_nested then
    if negb (length (m_inner e) =? 1)%nat then raise e EBadRequest else process_added v e
  else if body_eqb (m_body e) B_certConf then
    r <- process_cert_conf v e ;; protect v e r
  else
    lift e (protection_present e false) ;;;
    verify_inner_batch v e false ;;;
    if is_cert_req (m_body e) then
      r <- process_cert_request v e false ;; protect v e r
    else raise e ENotImplemented.

Fixpoint batch_loop (v : env) (es : list msg) : M (list resp) :=
  match es with
  | [] => ret []
  | e :: es' => r <- batch_entry v e ;; rs <- batch_loop v es' ;; ret (r :: rs)
  end.

(** mock_ca/nested_handler.py 235-323 (NestedHandler.process_batched_request) *)
Definition process_batched (v : env) (m : msg) : M resp :=
  lift m (batch_checks m) ;;;
  rs <- batch_loop v (m_inner m) ;;
  tx <- octets m (m_tx m) ;;
  sn <- octets m (m_snonce m) ;;
  protect v m {| r_body := B_nested; r_ok := true; r_fail := None; r_tx := Some tx; r_rnonce := Some sn;
                 r_snonce := v_nonce v m; r_certs := []; r_implicit := false; r_inner := rs |}.

(** mock_ca/nested_handler.py 121-153 (NestedHandler.process_nested_request) *)
Definition process_nested (v : env) (m : msg) : M resp :=
  verify_nested v m ;;;
  lift m (validate_header v m true true) ;;;
  match m_inner m with
  | [] => raise m EBadRequest
  | [_] => process_added v m
  | _ => process_batched v m
  end.

(* ------------------------------------------------------------------ *)
(** ** The request dispatcher (mock_ca/ca_handler.py 192-1437 (CAHandler)) *)

(** mock_ca/ca_handler.py 882-898 (CAHandler._check_for_compromised_key) *)
Definition compromised_check (v : env) (m : msg) : M unit :=
  match v_keys v m with
  | Err e => raise m (match e with
                      | EInvalidKeyData | EBadAsn1Data | EBadAlg => EBodyRelevant
                      | _ => e
                      end)
  | Ok _ =>
      s <- get ;;
      if rv_check_compromised key_of (s_rv s) (m_body m) (map q_key (m_reqs m))
      then raise m EBadCertTemplate else ret tt
  end.

(** mock_ca/cert_conf_handler.py 91-99 (CertConfState.is_not_confirmed) *)
Definition pending_cert (s : ca) (c : cert) : bool :=
  existsb (fun kv => existsb (cert_eqb c) (snd kv)) (s_ccerts s).

(** mock_ca/ca_handler.py 664-689 (CAHandler._check_is_not_confirmed) *)
Definition not_confirmed_check (m : msg) : M unit :=
  match m_extra m, m_alg m with
  | [], _ => ret tt
  | _, None => ret tt
  | _, Some _ =>
      t <- lift m (prot_type m) ;;
      if ptype_eqb t PT_MAC then ret tt
      else if body_in (m_body m) [B_certConf; B_error] then ret tt
      else s <- get ;;
           if existsb (pending_cert s) (m_extra m) then raise m ENotAuthorized else ret tt
  end.

(** mock_ca/ca_handler.py 813-844 (CAHandler.process_genm) *)
Definition process_genm (v : env) (m : msg) : M resp :=
  match m_genm m with
  | G_empty => raise m EBadRequest
  | g =>
      (match m_alg m with Some _ => validate_protection v m false | None => ret tt end) ;;;
      match g with
      | G_kem =>
          match m_alg m, m_extra m with
          | Some _, _ => raise m EBadRequest
          | None, [] => raise m EBadRequest
          | None, c :: _ =>
              ss <- lift m (v_ss v m) ;;
              r <- reply_to v m B_genp true None [] ;;
              not_confirmed_check m ;;;
              s <- get ;;
              lift m (not_allowed v m c s) ;;;
              tx <- octets m (m_tx m) ;;
              modify (fun s => set_kem s (kem_add (s_kem s) ss tx (m_sender m))) ;;;
              ret r
          end
      | _ => lift m (v_genm v m) ;;; reply_to v m B_genp true None []
      end
  end.

(** How a handled request ends: the final statements of process_normal_request
    run only if no [return] was taken inside the [try]. *)
Inductive flow := Done (r : resp) | Fall (r : resp).

Definition dispatch (v : env) (m : msg) : M flow :=
  if body_in (m_body m) [B_ir; B_cr] && m_challenge m then
    r <- process_challenge v m ;; r' <- protect v m r ;; ret (Done r')
  else
  match m_body m with
  | B_popdecr => r <- process_popdecr v m ;; ret (Fall r)
  | B_nested => r <- process_nested v m ;; ret (Done r)
  | B_ir | B_cr | B_p10cr | B_kur | B_ccr =>
      validate_protection v m true ;;;
      stfl_add_msg m ;;;
      r <- process_cert_request v m true ;;
      ret (Fall r)
  | B_rr =>
      r <- catch (lift m (validate_header v m true false) ;;; process_rr v m)
             (fun e _ => match e with
                         | EBadMessageCheck | EBadKeyUsage | EBodyRelevant => Some (rp_error v m e)
                         | _ => None
                         end) ;;
      ret (Fall r)
  | B_certConf => r <- process_cert_conf v m ;; ret (Fall r)
  | B_genm =>
      lift m (validate_header v m false false) ;;;
      r <- process_genm v m ;;
      (match m_genm m with G_kem => ret tt | _ => lift m (v_protect v m r) end) ;;;
      ret (Done r)
  | _ => raise m ENotImplemented
  end.

(** The [try] block of mock_ca/ca_handler.py 703-797 (CAHandler.process_normal_request) *)
Definition handle (v : env) (m : msg) : M flow :=
  s <- get ;;
  (match m_extra m with [] => ret tt | c :: _ => lift m (not_allowed v m c s) end) ;;;
  (if body_in (m_body m) [B_rr; B_genm] then ret tt else verify_protection v m) ;;;
  (if body_in (m_body m) [B_ir; B_cr; B_p10cr; B_kur; B_rr] then compromised_check v m else ret tt) ;;;
  (if body_in (m_body m) [B_certConf; B_error] then ret tt else not_confirmed_check m) ;;;
  dispatch v m.

(** mock_ca/ca_handler.py 507-526 (CAHandler._build_body_relevant_error): answers the message
    carried by the exception. *)
Definition body_relevant_error (v : env) (x : msg) : M resp :=
  if body_eqb (m_body x) B_rr then r <- rp_error v x EBodyRelevant ;; protect v x r
  else if is_cert_req (m_body x)
  then r <- reply_to v x (resp_body (m_body x)) false (Some EBodyRelevant) [] ;; protect v x r
  else protect v x (error_resp v x EBodyRelevant).

(** mock_ca/ca_handler.py 703-797 (CAHandler.process_normal_request) and the HTTP route
    mock_ca/ca_handler.py 1531-1550 (handle_issuing): an exception raised while the answer
    is built or protected becomes a status 500. *)
Definition process_request (v : env) (m : msg) : M resp :=
  fun s =>
    match handle v m s with
    | (s', ROk (Done r)) => (s', ROk r)
    | (s', ROk (Fall r)) => (kem_update m ;;; protect v m r) s'
    | (s', RErr e x) =>
        (match e with
         | EBodyRelevant => body_relevant_error v x
         | EInvalidSignature => protect v m (error_resp v m EBadMessageCheck)
         | _ => if is_cmp e then protect v m (error_resp v m e)
                else protect v m (error_resp v m ESystemFailure)
         end) s'
    end.

Definition step (s : ca) (mv : msg * env) : ca * outcome :=
  match process_request (snd mv) (fst mv) s with
  | (s', ROk r) => (s', Reply r)
  | (s', RErr _ _) => (s', Http500)
  end.

End CA.
