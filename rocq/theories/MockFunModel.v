(** Model of mock_ca/mock_fun.py: revocation lists, the certificate database,
    OCSP/CRL answers, the KEM shared-secret list, key re-use checks and the
    transaction-id bookkeeping of the Mock CA.

    General simplifications
    - A certificate *is* its DER encoding ([cert := bytes]); every attribute the
      code reads from it (serial number, subject, public key) is a function of
      the encoding, passed as Section variable.  [encoder.encode] is therefore
      the identity and [compare_pyasn1_objects] is equality of encodings.
      [copy_asn1_certificate] (resources/convertutils.py 193-217) is the identity.
    - [compute_hash(self.hash_alg, .)] is the Section variable [H].
    - Time stamps are integers (seconds); [datetime.now()] is an argument [now].
    - [isinstance] checks are discharged by Coq typing. *)
From Verif Require Export Prelude.
Local Open Scope Z_scope.

Definition cert := bytes.
Definition cert_eqb : cert -> cert -> bool := bytes_eqb.

(** PKIBody choice names used by the CA (strings in the code). *)
Inductive body :=
| B_ir | B_ip | B_cr | B_cp | B_p10cr | B_popdecc | B_popdecr | B_kur | B_kup
| B_krr | B_krp | B_rr | B_rp | B_ccr | B_ccp | B_ckuann | B_cann | B_rann
| B_crlann | B_pkiconf | B_nested | B_genm | B_genp | B_error | B_certConf
| B_pollReq | B_pollRep.

Definition body_eqb (a b : body) : bool :=
  match a, b with
  | B_ir, B_ir | B_ip, B_ip | B_cr, B_cr | B_cp, B_cp | B_p10cr, B_p10cr
  | B_popdecc, B_popdecc | B_popdecr, B_popdecr | B_kur, B_kur | B_kup, B_kup
  | B_krr, B_krr | B_krp, B_krp | B_rr, B_rr | B_rp, B_rp | B_ccr, B_ccr
  | B_ccp, B_ccp | B_ckuann, B_ckuann | B_cann, B_cann | B_rann, B_rann
  | B_crlann, B_crlann | B_pkiconf, B_pkiconf | B_nested, B_nested
  | B_genm, B_genm | B_genp, B_genp | B_error, B_error
  | B_certConf, B_certConf | B_pollReq, B_pollReq | B_pollRep, B_pollRep => true
  | _, _ => false
  end.

Definition body_in (b : body) (l : list body) : bool := existsb (body_eqb b) l.

(** Public keys: plain keys and hybrid keys with a PQ and a traditional
    component.  [Hybrid name pq trad]: equality of hybrid keys compares the
    algorithm name and both components
    (pq_logic/keys/abstract_wrapper_keys.py 553-561, 610-618); equality of
    plain keys compares type and raw bytes (126-131, 312-320). *)
Inductive pubkey :=
| Plain (k : bytes)
| Hybrid (name : bytes) (pq trad : bytes).

Definition pubkey_eqb (a b : pubkey) : bool :=
  match a, b with
  | Plain x, Plain y => bytes_eqb x y
  | Hybrid n p t, Hybrid n' p' t' => bytes_eqb n n' && bytes_eqb p p' && bytes_eqb t t'
  | _, _ => false
  end.

(** CRL reasons, rfc5280.CRLReason; [R_updated] is the free-text reason used at
    mock_ca/mock_fun.py 459. *)
Inductive reason :=
| R_unspecified | R_keyCompromise | R_cACompromise | R_affiliationChanged
| R_superseded | R_cessationOfOperation | R_certificateHold | R_removeFromCRL
| R_privilegeWithdrawn | R_aACompromise | R_updated.

Definition is_remove (r : reason) : bool :=
  match r with R_removeFromCRL => true | _ => false end.

(** mock_ca/mock_fun.py 44-50 (RevokedEntry) *)
Record rev_entry := {
  re_reason : reason;
  re_cert : cert;
  re_hash : option bytes;
  re_date : option Z
}.

Section MockFun.
Variable H : bytes -> bytes.          (* compute_hash(self.hash_alg, der) *)
Variable serial : cert -> Z.          (* int(cert["tbsCertificate"]["serialNumber"]) *)
Variable subject : cert -> bytes.     (* cert["tbsCertificate"]["subject"], compared "without_tag" *)
Variable key_of : cert -> pubkey.     (* load_public_key_from_spki / _from_cert *)

(* ------------------------------------------------------------------ *)
(** ** RevokedEntryList (mock_ca/mock_fun.py 54-239 (RevokedEntryList)) *)

(** mock_ca/mock_fun.py 61-78 (RevokedEntryList.build) for certificate entries *)
Definition rl_build (certs : list cert) : list rev_entry :=
  map (fun c => {| re_reason := R_unspecified; re_cert := c;
                   re_hash := Some (H c); re_date := None |}) certs.

(** The hash used for an entry: mock_ca/mock_fun.py 87-90 *)
Definition entry_hash (e : rev_entry) : bytes :=
  match re_hash e with None => H (re_cert e) | Some h => h end.

(** mock_ca/mock_fun.py 84-94 (RevokedEntryList.contains_hash) *)
Definition rl_contains_hash (l : list rev_entry) (h : bytes) : bool :=
  existsb (fun e => bytes_eqb (entry_hash e) h) l.

(** mock_ca/mock_fun.py 96-103 (RevokedEntryList.get_by_hash) (the caching of the computed hash in the entry is not
    modelled; it has no observable effect) *)
Definition rl_get_by_hash (l : list rev_entry) (h : bytes) : option cert :=
  option_map re_cert (find (fun e => bytes_eqb (entry_hash e) h) l).

(** [list.remove(found)] where [found] is the first element satisfying [p] *)
Fixpoint remove_first {A} (p : A -> bool) (l : list A) : list A :=
  match l with
  | [] => []
  | x :: l' => if p x then l' else x :: remove_first p l'
  end.

(** mock_ca/mock_fun.py 105-118 (RevokedEntryList.remove_by_hash) *)
Definition rl_remove_by_hash (l : list rev_entry) (h : bytes) : list rev_entry :=
  remove_first (fun e => bytes_eqb (entry_hash e) h) l.

(** mock_ca/mock_fun.py 131-136 (RevokedEntryList.get_cert_by_serial_number) *)
Definition rl_cert_by_serial (l : list rev_entry) (n : Z) : option cert :=
  option_map re_cert (find (fun e => serial (re_cert e) =? n) l).

(** mock_ca/mock_fun.py 139-141 (RevokedEntryList.serial_numbers) *)
Definition rl_serials (l : list rev_entry) : list Z := map (fun e => serial (re_cert e)) l.

(** mock_ca/mock_fun.py 144-146 (RevokedEntryList.certs) *)
Definition rl_certs (l : list rev_entry) : list cert := map re_cert l.

(** mock_ca/mock_fun.py 148-160 (RevokedEntryList.remove) *)
Definition rl_remove (l : list rev_entry) (e : rev_entry) : list rev_entry :=
  remove_first (fun x => cert_eqb (re_cert e) (re_cert x)) l.

(** mock_ca/mock_fun.py 162-178 (RevokedEntryList.add_entry), for a list of entries *)
Definition rl_add_one (l : list rev_entry) (e : rev_entry) : list rev_entry :=
  if is_remove (re_reason e) then rl_remove l e else l ++ [e].
Definition rl_add (l : list rev_entry) (es : list rev_entry) : list rev_entry :=
  fold_left rl_add_one es l.

(** mock_ca/mock_fun.py 181-193 (RevokedEntryList.compromised_keys) *)
Definition compromised_keys (l : list rev_entry) : list pubkey :=
  flat_map (fun e =>
    match key_of (re_cert e) with
    | Hybrid n p t => [Plain p; Plain t; Hybrid n p t]
    | Plain k => [Plain k]
    end) l.

(** mock_ca/mock_fun.py 195-203 (RevokedEntryList._contains), mock_ca/mock_fun.py 205-228 (RevokedEntryList.contains_key) *)
Definition rl_contains_key (l : list rev_entry) (k : pubkey) : bool :=
  match k with
  | Hybrid n p t =>
      existsb (pubkey_eqb (Plain p)) (compromised_keys l)
      || existsb (pubkey_eqb (Plain t)) (compromised_keys l)
      || existsb (pubkey_eqb k) (compromised_keys l)
  | Plain _ => existsb (pubkey_eqb k) (compromised_keys l)
  end.

(** mock_ca/mock_fun.py 230-239 (RevokedEntryList.is_revoked) *)
Definition rl_is_revoked (l : list rev_entry) (c : cert) : bool :=
  existsb (cert_eqb c) (rl_certs l).

(* ------------------------------------------------------------------ *)
(** ** CertRevStateDB (mock_ca/mock_fun.py 243-459 (CertRevStateDB)) *)
Record rev_db := {
  rv_rev : list rev_entry;
  rv_upd : list rev_entry;
  rv_update_eq_rev : bool;
  rv_crl_number : Z
}.

(** mock_ca/mock_fun.py 253-270 (CertRevStateDB.build) *)
Definition rv_build (revoked updated : list cert) (crl_number : Z) : rev_db :=
  {| rv_rev := rl_build revoked; rv_upd := rl_build updated;
     rv_update_eq_rev := true; rv_crl_number := crl_number |}.

(** default instance, mock_ca/mock_fun.py 243-250 *)
Definition rv_init : rev_db :=
  {| rv_rev := []; rv_upd := []; rv_update_eq_rev := true; rv_crl_number := 1 |}.

Inductive ocsp_status := O_good | O_revoked | O_unauthorized.

Definition rv_nums (d : rev_db) : list Z :=
  rl_serials (rv_rev d) ++ (if rv_update_eq_rev d then rl_serials (rv_upd d) else []).

(** mock_ca/mock_fun.py 284-317 (CertRevStateDB._check_ocps_request_cert_status) *)
Definition ocsp_check (d : rev_db) (issued : list cert) (n : Z) : option cert * ocsp_status :=
  if existsb (Z.eqb n) (rv_nums d)
  then (rl_cert_by_serial (rv_rev d) n, O_revoked)
  else match find (fun c => n =? serial c) issued with
       | Some c => (Some c, O_good)
       | None => (None, O_unauthorized)
       end.

(** What the client observes: an unsuccessful "unauthorized" response, or a
    signed response with a status for a certificate.  mock_ca/mock_fun.py 319-357 (CertRevStateDB.get_ocsp_response);
    the construction of the signed response is not modelled. *)
Inductive ocsp_answer := A_unauthorized | A_status (c : cert) (s : ocsp_status).

Definition rv_ocsp (d : rev_db) (issued : list cert) (n : Z) : result ocsp_answer :=
  match ocsp_check d issued n with
  | (None, O_unauthorized) => Ok A_unauthorized
  | (None, _) => Err ENotImplemented
  | (Some c, s) => Ok (A_status c s)
  end.

(** A CRL as seen by a client: its number and the listed serial numbers. *)
Record crl := { crl_number : Z; crl_serials : list Z }.

(** mock_ca/mock_fun.py 359-401 (CertRevStateDB.get_crl_response); signing is not modelled *)
Definition rv_crl (d : rev_db) : rev_db * crl :=
  ({| rv_rev := rv_rev d; rv_upd := rv_upd d; rv_update_eq_rev := rv_update_eq_rev d;
      rv_crl_number := rv_crl_number d + 1 |},
   {| crl_number := rv_crl_number d; crl_serials := rv_nums d |}).

(** mock_ca/mock_fun.py 403-405 (CertRevStateDB.add_compromised_key), mock_ca/mock_fun.py 407-409 (CertRevStateDB.add_rev_entry) *)
Definition rv_add_rev_entry (d : rev_db) (es : list rev_entry) : rev_db :=
  {| rv_rev := rl_add (rv_rev d) es; rv_upd := rv_upd d;
     rv_update_eq_rev := rv_update_eq_rev d; rv_crl_number := rv_crl_number d |}.

(** mock_ca/mock_fun.py 456-459 (CertRevStateDB.add_updated_cert) *)
Definition rv_add_updated (d : rev_db) (c : cert) : rev_db :=
  {| rv_rev := rv_rev d;
     rv_upd := rl_add (rv_upd d) [{| re_reason := R_updated; re_cert := c;
                                     re_hash := Some (H c); re_date := None |}];
     rv_update_eq_rev := rv_update_eq_rev d; rv_crl_number := rv_crl_number d |}.

(** mock_ca/mock_fun.py 411-434 (CertRevStateDB.check_request_for_compromised_key).  The request is its body name and, per certificate
    request message, the public key of the template if present ([p10cr] has
    exactly one key).  The literal list in the code is ["ir","cr","crr","kur"];
    "crr" is not the name of any PKIBody alternative. *)
Fixpoint scan_keys (l : list rev_entry) (ks : list (option pubkey)) : bool :=
  match ks with
  | [] => false
  | None :: _ => false
  | Some k :: ks' => if rl_contains_key l k then true else scan_keys l ks'
  end.

Definition rv_check_compromised (d : rev_db) (b : body) (keys : list (option pubkey)) : bool :=
  match b with
  | B_p10cr => match keys with
               | Some k :: _ => rl_contains_key (rv_rev d) k
               | _ => false
               end
  | B_ir | B_cr | B_kur => scan_keys (rv_rev d) keys
  | _ => false
  end.

(* ------------------------------------------------------------------ *)
(** ** KeySecurityChecker (mock_ca/mock_fun.py 631-712 (KeySecurityChecker)) *)

(** mock_ca/mock_fun.py 639-668 (KeySecurityChecker._compare_pub_keys) *)
Definition compare_pub_keys (k : pubkey) (c : cert) : bool :=
  match k, key_of c with
  | Hybrid _ p t, Plain x => pubkey_eqb (Plain x) (Plain t) || pubkey_eqb (Plain x) (Plain p)
  | Hybrid n p t, Hybrid n' p' t' =>
      if pubkey_eqb k (Hybrid n' p' t') then true
      else if bytes_eqb t t' then true
      else if bytes_eqb p p' then true
      else if bytes_eqb p t' then true
      else false
  | Plain x, Hybrid _ p' t' => if bytes_eqb x t' then true else if bytes_eqb x p' then true else false
  | Plain x, Plain y => bytes_eqb x y
  end.

(** mock_ca/mock_fun.py 680-692 (KeySecurityChecker._check_contains_pub_key) *)
Definition check_contains_pub_key (certs : list cert) (k : pubkey) (sender : bytes) : bool :=
  existsb (fun c => bytes_eqb sender (subject c) && compare_pub_keys k c) certs.

(** mock_ca/mock_fun.py 670-678 (KeySecurityChecker.contains_pub_key) *)
Definition ksc_contains (issued revoked updated : list cert) (k : pubkey) (sender : bytes) : bool :=
  check_contains_pub_key (issued ++ revoked ++ updated) k sender.

Inductive key_status := KS_good | KS_revoked | KS_updated | KS_in_use.

(** mock_ca/mock_fun.py 694-712 (KeySecurityChecker.check_cert_status) *)
Definition ksc_status (issued revoked updated : list cert) (k : pubkey) (sender : bytes) : key_status :=
  if check_contains_pub_key revoked k sender then KS_revoked
  else if check_contains_pub_key updated k sender then KS_updated
  else if check_contains_pub_key issued k sender then KS_in_use
  else KS_good.

(* ------------------------------------------------------------------ *)
(** ** CertificateDB (mock_ca/mock_fun.py 960-1320 (CertificateDB)) *)

(** mock_ca/mock_fun.py 716-736 (CertStateEnum) *)
Inductive cert_state :=
| NOT_CONFIRMED | CONFIRMED | REVOKED | UPDATED | UPDATED_BUT_NOT_CONFIRMED
| REVIVED | UNKNOWN.

Definition state_eqb (a b : cert_state) : bool :=
  match a, b with
  | NOT_CONFIRMED, NOT_CONFIRMED | CONFIRMED, CONFIRMED | REVOKED, REVOKED
  | UPDATED, UPDATED | UPDATED_BUT_NOT_CONFIRMED, UPDATED_BUT_NOT_CONFIRMED
  | REVIVED, REVIVED | UNKNOWN, UNKNOWN => true
  | _, _ => false
  end.

(** mock_ca/mock_fun.py 741-759 (CertDBEntry) *)
Record db_entry := {
  e_state : cert_state;
  e_cert : cert;
  e_digest : bytes;
  e_issue : option Z;
  e_upd_digest : option bytes;
  e_upd_date : option Z;
  e_rev : option rev_entry
}.

Definition set_state (e : db_entry) (s : cert_state) : db_entry :=
  {| e_state := s; e_cert := e_cert e; e_digest := e_digest e; e_issue := e_issue e;
     e_upd_digest := e_upd_digest e; e_upd_date := e_upd_date e; e_rev := e_rev e |}.

Definition set_rev (e : db_entry) (r : option rev_entry) : db_entry :=
  {| e_state := e_state e; e_cert := e_cert e; e_digest := e_digest e; e_issue := e_issue e;
     e_upd_digest := e_upd_digest e; e_upd_date := e_upd_date e; e_rev := r |}.

Definition set_upd_digest (e : db_entry) (d : bytes) : db_entry :=
  {| e_state := e_state e; e_cert := e_cert e; e_digest := e_digest e; e_issue := e_issue e;
     e_upd_digest := Some d; e_upd_date := e_upd_date e; e_rev := e_rev e |}.

Definition set_upd_date (e : db_entry) (t : Z) : db_entry :=
  {| e_state := e_state e; e_cert := e_cert e; e_digest := e_digest e; e_issue := e_issue e;
     e_upd_digest := e_upd_digest e; e_upd_date := Some t; e_rev := e_rev e |}.

(** mock_ca/mock_fun.py 960-980 (CertificateDB) *)
Record cert_db := {
  db_certs : list db_entry;
  db_save_date_time : bool;
  db_timeout : Z;          (* updated_cert_timeout, seconds *)
  db_crl_number : Z
}.

Definition db_init : cert_db :=
  {| db_certs := []; db_save_date_time := false; db_timeout := 10; db_crl_number := 1 |}.

Definition with_certs (d : cert_db) (l : list db_entry) : cert_db :=
  {| db_certs := l; db_save_date_time := db_save_date_time d;
     db_timeout := db_timeout d; db_crl_number := db_crl_number d |}.

(** mock_ca/mock_fun.py 1029-1034 (CertificateDB._get_certs_by_state) *)
Definition certs_by_state (d : cert_db) (s : cert_state) : list cert :=
  map e_cert (filter (fun e => state_eqb (e_state e) s) (db_certs d)).

(** mock_ca/mock_fun.py 1000-1010 (CertificateDB.issued_certs) *)
Definition issued_certs (d : cert_db) : list cert :=
  map e_cert (filter (fun e => negb (state_eqb (e_state e) NOT_CONFIRMED
                                     || state_eqb (e_state e) UPDATED_BUT_NOT_CONFIRMED))
                     (db_certs d)).

(** mock_ca/mock_fun.py 1013-1015 (CertificateDB.not_confirmed_certs) *)
Definition not_confirmed_certs (d : cert_db) : list cert := certs_by_state d NOT_CONFIRMED.
(** mock_ca/mock_fun.py 1037-1039 (CertificateDB.revoked_certs) *)
Definition revoked_certs (d : cert_db) : list cert := certs_by_state d REVOKED.
(** mock_ca/mock_fun.py 1042-1046 (CertificateDB.updated_certs) *)
Definition updated_certs (d : cert_db) : list cert :=
  certs_by_state d UPDATED ++ certs_by_state d UPDATED_BUT_NOT_CONFIRMED.

(** mock_ca/mock_fun.py 1048-1072 (CertificateDB.add_cert) *)
Definition add_cert (d : cert_db) (c : cert) (s : cert_state) (now : Z) : result cert_db :=
  match s with
  | NOT_CONFIRMED | CONFIRMED =>
      Ok (with_certs d (db_certs d ++
            [{| e_state := s; e_cert := c; e_digest := H c;
                e_issue := if db_save_date_time d then Some now else None;
                e_upd_digest := None; e_upd_date := None; e_rev := None |}]))
  | _ => Err EValueError
  end.

(** mock_ca/mock_fun.py 1074-1094 (CertificateDB._process_rev_cert).  With [None] the code builds a RevokedEntry and
    drops it, so the stored value stays [None]. *)
Definition process_rev_cert (e : db_entry) (r : option rev_entry) : db_entry := set_rev e r.

(** mock_ca/mock_fun.py 1096-1127 (CertificateDB._process_update_cert) *)
Definition process_update_cert (e : db_entry) (s : cert_state) (upd : option cert) (now : Z)
  : result db_entry :=
  if state_eqb s UPDATED && state_eqb (e_state e) UPDATED_BUT_NOT_CONFIRMED then
    match e_upd_digest e with
    | None => match upd with
              | None => Err EValueError
              | Some u => Ok (set_state (set_upd_digest e (H u)) s)
              end
    | Some _ => Ok (set_state e s)
    end
  else if state_eqb s UPDATED || state_eqb s UPDATED_BUT_NOT_CONFIRMED then
    match upd with
    | None => Err ETypeError
    | Some u => Ok (set_state (set_upd_date (set_upd_digest e (H u)) now) s)
    end
  else Err EValueError.

(** The branch taken for the matching entry: mock_ca/mock_fun.py 1165-1200 *)
Definition change_entry (e : db_entry) (s : cert_state) (r : option rev_entry)
           (upd : option cert) (now : Z) : result db_entry :=
  match s with
  | REVOKED =>
      if state_eqb (e_state e) REVIVED || state_eqb (e_state e) CONFIRMED
      then Ok (set_state (process_rev_cert e r) REVOKED)
      else Err EValueError
  | REVIVED =>
      if state_eqb (e_state e) REVOKED
      then Ok (set_rev (set_state e REVIVED) None)
      else Err EValueError
  | UPDATED | UPDATED_BUT_NOT_CONFIRMED => process_update_cert e s upd now
  | CONFIRMED =>
      if state_eqb (e_state e) NOT_CONFIRMED then Ok (set_state e CONFIRMED) else Err EValueError
  | _ => Err EValueError
  end.

(** The [for entry in self._certs] loop, mock_ca/mock_fun.py 1163-1203: only the first
    entry with the digest is touched; falling off the end raises. *)
Fixpoint change_in (l : list db_entry) (dig : bytes) (s : cert_state) (r : option rev_entry)
         (upd : option cert) (now : Z) : result (list db_entry) :=
  match l with
  | [] => Err EValueError
  | e :: l' =>
      if bytes_eqb dig (e_digest e)
      then let! e' := change_entry e s r upd now in Ok (e' :: l')
      else let! l'' := change_in l' dig s r upd now in Ok (e :: l'')
  end.

(** mock_ca/mock_fun.py 1129-1203 (CertificateDB.change_cert_state) *)
Definition change_cert_state (d : cert_db) (c : cert) (s : cert_state) (r : option rev_entry)
           (upd : option cert) (now : Z) : result cert_db :=
  match s with
  | CONFIRMED | UPDATED | REVOKED | REVIVED | UPDATED_BUT_NOT_CONFIRMED =>
      let! l := change_in (db_certs d) (H c) s r upd now in Ok (with_certs d l)
  | _ => Err EValueError
  end.

(** mock_ca/mock_fun.py 1226-1235 (CertificateDB._get_cert_by_digest) *)
Definition get_by_digest (l : list db_entry) (dig : bytes) : option db_entry :=
  find (fun e => bytes_eqb dig (e_digest e)) l.

(** mock_ca/mock_fun.py 1217-1224 (CertificateDB.get_cert) *)
Definition get_cert (d : cert_db) (c : cert) : option db_entry := get_by_digest (db_certs d) (H c).

(** mock_ca/mock_fun.py 1205-1215 (CertificateDB.get_cert_state) *)
Definition get_cert_state (d : cert_db) (c : cert) : cert_state :=
  match get_cert d c with Some e => e_state e | None => UNKNOWN end.

(** mock_ca/mock_fun.py 1254-1261: the bounded loop *)
Fixpoint history_from (l : list db_entry) (fuel : nat) (e : db_entry) : list cert :=
  match fuel with
  | O => []
  | S fuel' =>
      match e_upd_digest e with
      | None => []
      | Some dig =>
          match get_by_digest l dig with
          | None => []
          | Some e' => e_cert e' :: history_from l fuel' e'
          end
      end
  end.

(** mock_ca/mock_fun.py 1237-1262 (CertificateDB.get_updated_history) *)
Definition get_updated_history (d : cert_db) (c : cert) : option (list cert) :=
  match get_cert d c with
  | None => None
  | Some e => match e_upd_digest e with
              | None => None
              | Some _ => Some (e_cert e :: history_from (db_certs d) 10 e)
              end
  end.

(** mock_ca/mock_fun.py 1264-1287 (CertificateDB.get_current_crl).  The CRL number is incremented only in the temporary
    CertRevStateDB, so the database itself is returned unchanged. *)
Definition db_current_crl (d : cert_db) : cert_db * crl :=
  let rv := rv_build (revoked_certs d) (updated_certs d) (db_crl_number d) in
  (d, snd (rv_crl rv)).

(** mock_ca/mock_fun.py 1289-1320 (CertificateDB.get_ocsp_response) *)
Definition db_ocsp (d : cert_db) (add_certs : list cert) (n : Z) : result ocsp_answer :=
  rv_ocsp (rv_build (revoked_certs d) (updated_certs d) (db_crl_number d))
          (issued_certs d ++ add_certs) n.

(* ------------------------------------------------------------------ *)
(** ** UpdateCertDB (mock_ca/mock_fun.py 763-956 (UpdateCertDB)) *)

(** mock_ca/mock_fun.py 937-956 (UpdateCertDB.build_from_entries) *)
Definition update_entries (d : cert_db) : list db_entry :=
  filter (fun e => state_eqb (e_state e) UPDATED || state_eqb (e_state e) UPDATED_BUT_NOT_CONFIRMED)
         (db_certs d).

(** mock_ca/mock_fun.py 789-807 (UpdateCertDB.is_updated) *)
Definition is_updated (d : cert_db) (c : cert) (allow_timeout : bool) (now : Z) : bool :=
  match get_by_digest (update_entries d) (H c) with
  | None => false
  | Some e =>
      match e_upd_date e with
      | None => true
      | Some t => if state_eqb (e_state e) UPDATED then true
                  else if (db_timeout d <? now - t) && negb allow_timeout then false else true
      end
  end.

(** mock_ca/mock_fun.py 809-830 (UpdateCertDB._for_cert_conf) ([strict] is always [True] at the only call site) *)
Definition for_cert_conf (timeout : Z) (e : db_entry) (now : Z) : result unit :=
  if state_eqb (e_state e) UPDATED then Err ECertConfirmed
  else match e_upd_date e with
       | Some t => if timeout <? now - t then Err EBadRequest else Ok tt
       | None => Ok tt
       end.

(** mock_ca/mock_fun.py 832-861 (UpdateCertDB._for_kur) *)
Definition for_kur (timeout : Z) (e : db_entry) (now : Z) : result unit :=
  if state_eqb (e_state e) UPDATED then Err ECertRevoked
  else match e_upd_date e with
       | None => Err ETypeError
       | Some t => if state_eqb (e_state e) UPDATED_BUT_NOT_CONFIRMED
                   then if now - t <? timeout then Err EBadRequest else Ok tt
                   else Err ETypeError
       end.

(** mock_ca/mock_fun.py 863-889 (UpdateCertDB._for_rr) *)
Definition for_rr (timeout : Z) (e : db_entry) (allow_timeout : bool) (now : Z) : result unit :=
  if state_eqb (e_state e) UPDATED then Err ECertRevoked
  else match e_upd_date e with
       | None => Err ETypeError
       | Some t => if (now - t <? timeout) && allow_timeout then Ok tt else Err EBadRequest
       end.

(** mock_ca/mock_fun.py 891-934 (UpdateCertDB.validate_is_updated) *)
Definition validate_is_updated (d : cert_db) (b : body) (c : cert) (allow_timeout : bool) (now : Z)
  : result unit :=
  match get_by_digest (update_entries d) (H c) with
  | None => Ok tt
  | Some e =>
      if state_eqb (e_state e) UPDATED && negb (body_eqb b B_kur) then Err ECertRevoked
      else if body_eqb b B_certConf then for_cert_conf (db_timeout d) e now
      else if body_eqb b B_kur then for_kur (db_timeout d) e now
      else if body_eqb b B_rr then for_rr (db_timeout d) e allow_timeout now
      else if body_in b [B_ir; B_cr; B_p10cr] && state_eqb (e_state e) UPDATED_BUT_NOT_CONFIRMED
      then Err EBadRequest
      else if is_updated d c allow_timeout now then Err ECertRevoked else Ok tt
  end.

End MockFun.
