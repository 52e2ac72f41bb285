(** Model of the processing of certificate requests (resources/ca_ra_utils.py): proof of possession, registration
    information, issuing, batches, key updates, cross-certification and PKCS #10 requests. The libraries and the parts
    of the suite that are not modelled here are the fields of [env]. *)
From Coq Require Import String Ascii.
From Verif Require Import Prelude PyStr CompLoadModel HdrModel ProtTab ProtModel.
Open Scope string_scope.
Open Scope Z_scope.
Local Notation length := List.length.

(** ** Requests *)

(** A loaded public key; finite-field Diffie-Hellman keys are in no class of [kkind]. *)
Inductive pub := Pub (k : key) | PubDh.
(** The publicKey of a template: absent, an algorithm with an empty key (a request for central key generation), or the
    encoding of a SubjectPublicKeyInfo. *)
Inductive tkey := TAbsent | TEmpty (alg : bytes) | TKey (der : bytes).
(** A CertTemplate. [t_ku] is the decoded KeyUsage extension ([Some None] when it does not decode), [t_bc] the cA flag
    of the BasicConstraints extension. *)
Record template := {
  t_key : tkey; t_null : bool; t_san : bool; t_version : option Z; t_nb : bool; t_na : bool; t_inull : bool;
  t_ian : bool; t_alg : bool; t_ku : option (option (list string)); t_bc : option bool; t_rest : bytes
}.
(** An AttributeTypeAndValue of controls or of regInfo. *)
Record control := { ct_type : string; ct_val : bytes }.
Record certreq := { r_id : Z; r_tmpl : template; r_controls : option (list control) }.
(** POPOPrivKey; subsequentMessage is 0 for encrCert and 1 for challengeResp. *)
Inductive privpop := PpMac (a : algid) (v : bytes) | PpNext (n : Z) | PpKey (envelope : bytes) | PpOther.
Inductive popo := PoRa | PoSig (a : algid) (v : bytes) | PoEnc (p : privpop) | PoAgree (p : privpop).
Record reqmsg := { q_req : certreq; q_popo : option popo; q_info : option (list control) }.
(** A PKCS #10 request: [s_der] is the encoding of its certificationRequestInfo. *)
Record csr := { s_version : Z; s_tmpl : template; s_alg : algid; s_sig : bytes; s_der : bytes }.
(** A PKIMessage: the name of its body, the CertReqMsgs of the body, the PKCS #10 request of a p10cr, the number of
    entries of a certConf or rr, extraCerts (empty when unset), and whether the message is protected by a MAC. *)
Record request := { b_name : string; b_reqs : list reqmsg; b_csr : option csr; b_entries : nat; b_certs : list cert; b_mac : bool }.

Record env := {
  e_lib : lib;
  e_rnd : Z -> bytes;
  e_load : bytes -> result pub;
  e_params : bytes -> bool;
  e_bits : key -> Z;
  e_same : key -> key -> bool;
  e_stf : bool -> key -> bytes -> result unit;
  e_gen : bytes -> result unit;
  e_enc : certreq -> option bytes;
  e_dec : bytes -> option (certreq * bytes);
  e_utf8 : bytes -> result unit;
  e_old : bytes -> option ((bytes * Z) * bytes);
  e_issuer : bytes -> cert -> bool;
  e_serial : cert -> Z;
  e_controls : nat -> certreq -> result unit;
  e_ras : list cert;
  e_eku : bool -> cert -> result unit;
  e_ku : cert -> result unit;
  e_chain : list cert -> cert -> list cert;
  e_self : cert -> bool;
  e_openssl : list cert -> result unit;
  e_build : template -> result unit;
  e_central : template -> result unit;
  e_agree : key -> option key;
  e_wrap : key -> result unit;
  e_open : list cert -> bytes -> result (key * bool)
}.
(** The options of the processing: whether raVerified and the chain of the RA are verified, whether the RA extended key
    usage is required, whether the lightweight profile is enforced. *)
Record opts := { o_ra : bool; o_chain : bool; o_eku : bool; o_lw : bool }.
(** An issued certificate, given by the template it is built from: handed out in clear, encrypted for a key, or for a
    centrally generated key that is returned with it. *)
Inductive issued := IPlain (t : template) | IEnc (t : template) (k : key) | ICentral (t : template).

(** ** Reading requests *)

(** [except (BadAlg, ValueError)]: InvalidKeyCombination is a BadAlg, UnicodeError a ValueError. *)
Definition is_value_error (e : exn) : bool := match e with EValueError | EUnicode => true | _ => false end.
Definition is_bad_alg (e : exn) : bool := match e with EBadAlg | EInvalidKeyCombination => true | _ => false end.
Definition is_key_data (e : exn) : bool := match e with EInvalidKeyData | EMismatchingKey => true | _ => false end.
Definition catch {A} (p : exn -> bool) (e : exn) (r : result A) : result A :=
  match r with Ok x => Ok x | Err x => if p x then Err e else Err x end.
(** Models resources/keyutils.py 616-660 (load_public_key_from_cert_template). *)
Definition tmpl_key (E : env) (must : bool) (t : template) : result (option pub) :=
  match t_key t with
  | TAbsent | TEmpty _ => if must then Err EBadCertTemplate else Ok None
  | TKey d => let! p := catch (fun e => is_bad_alg e || is_value_error e) EBadCertTemplate (e_load E d) in Ok (Some p)
  end.
(** Models resources/ca_ra_utils.py 488-499 (get_public_key_from_cert_req_msg) with must_be_present. *)
Definition req_key (E : env) (q : reqmsg) : result pub :=
  let! p := tmpl_key E true (r_tmpl (q_req q)) in match p with Some x => Ok x | None => Err EBadCertTemplate end.
(** Models resources/ca_ra_utils.py 419-448 (get_cert_req_msg_from_pkimessage). Out of range the documented IndexError
    is modelled; pyasn1 gives an empty element instead. *)
Definition get_req (m : request) (i : nat) : result reqmsg :=
  if str_mem (b_name m) ["ir"; "cr"; "kur"; "ccr"] then
    match nth_error (b_reqs m) i with Some q => Ok q | None => Err EIndexError end
  else Err EValueError.
(** Models resources/ca_ra_utils.py 582-613 (_get_kga_key_from_cert_template): what [e_gen] does is generating the key
    for the algorithm of an empty key. *)
Definition kga_key (E : env) (t : template) : result unit :=
  match t_key t with TAbsent => Ok tt | TEmpty a => e_gen E a | TKey _ => Err EBadPOP end.
(** Models resources/ca_ra_utils.py 1090-1118 (check_if_request_is_for_kga). *)
Definition is_for_kga (E : env) (m : request) (i : nat) : result bool :=
  let! q := get_req m i in
  match q_popo q with Some _ => Ok false | None => let! _ := kga_key E (r_tmpl (q_req q)) in Ok true end.
(** Models resources/keyutils.py 711-794 (check_consistency_sig_alg_id_and_key), composite identifiers included. The
    keys of cryptography have no [get_oid], that of the other classes takes no argument. *)
Definition consistent (o : oid) (k : kkind) : result unit :=
  match lookup o COMPOSITE_SIG_OID_TO_NAME with
  | Some n =>
      match k with
      | KComp plain pss =>
          match (if endswith "-pss" n then pss else plain) with
          | Ok x => guard (String.eqb x o) EBadSigAlgID
          | Err EInvalidKeyCombination => Err EBadSigAlgID
          | Err e => Err e
          end
      | KRsa | KEc | KEd25519 | KEd448 | KDsa => Err EAttribute
      | _ => Err ETypeError
      end
  | None => check_consistency o k
  end.
Definition is_sig_id (e : exn) : bool := match e with EBadSigAlgID => true | _ => false end.
(** ** Proof of possession *)

Definition is_dsa (k : kkind) : bool := match k with KDsa => true | _ => false end.
(** Models resources/ca_ra_utils.py 1121-1173 (_verify_pop_signature). *)
Definition verify_pop_signature (E : env) (m : request) (i : nat) : result unit :=
  let r :=
    let! q := get_req m i in
    match q_popo q with
    | Some (PoSig a v) =>
        let! p := req_key E q in
        match p with
        | PubDh => Err EBadPOP
        | Pub k =>
            let! _ := guard (is_sign_kind (k_kind k)) EBadPOP in
            let! _ := guard (negb (is_dsa (k_kind k))) EBadPOP in
            match e_enc E (q_req q) with
            | None => Err EPyAsn1
            | Some data => verify_signature_with_alg_id (e_lib E) k a data v
            end
        end
    | _ => Err EBadPOP
    end in
  match r with
  | Err EBadSigAlgID | Err EInvalidSignature | Err EInvalidAltSignature => Err EBadPOP
  | Err EPyAsn1 => Err EBadAsn1Data
  | x => x
  end.
(** Models resources/ca_ra_utils.py 2133-2182 (verify_sig_pop_for_pki_request): PKIMessage has no field p10cr, reading
    it is a KeyError. *)
Definition verify_sig_pop (E : env) (m : request) (i : nat) : result unit :=
  if str_mem (b_name m) ["ir"; "cr"; "kur"; "crr"] then
    let! q := get_req m i in
    match q_popo q with
    | Some (PoSig _ _) => catch is_sig_id EBadPOP (verify_pop_signature E m i)
    | _ => Err EBadPOP
    end
  else Err EKeyError.
(** Models resources/certutils.py 1053-1066 (cert_in_list). *)
Definition cert_in_list (c : cert) (l : list cert) : bool := existsb (fun x => bytes_eqb (c_der c) (c_der x)) l.
(** Models resources/ca_ra_utils.py 1176-1249 (_verify_ra_verified); [len(ra_certs) is None] never holds. *)
Definition verify_ra_verified (E : env) (m : request) (o : opts) : result unit :=
  if negb (o_ra o) then Ok tt else
  match b_certs m with
  | [] => Err ENotAuthorized
  | c :: _ =>
      let! _ := guard (cert_in_list c (e_ras E)) ENotAuthorized in
      let! _ := catch is_value_error ENotAuthorized (e_eku E (o_eku o) c) in
      let! _ := catch is_value_error ENotAuthorized (e_ku E c) in
      let chain := e_chain E (b_certs m) c in
      let! _ := guard (negb (match chain with [x] => negb (e_self E x) | _ => false end)) ENotAuthorized in
      if o_chain o then
        catch (fun e => match e with ESignerNotTrusted => true | _ => false end) ENotAuthorized (e_openssl E chain)
      else Ok tt
  end.
Definition is_kem (p : pub) : bool := match p with Pub {| k_kind := KKem _ |} => true | _ => false end.
Definition is_ecdh (p : pub) : bool :=
  match p with Pub {| k_kind := KEc |} | Pub {| k_kind := KX25519 |} | Pub {| k_kind := KX448 |} => true | _ => false end.
(** Models resources/ca_ra_utils.py 1252-1327 (verify_popo_for_cert_request). *)
Definition verify_popo (E : env) (m : request) (i : nat) (o : opts) : result unit :=
  if negb (str_mem (b_name m) ["ir"; "cr"; "kur"; "crr"]) then Err EValueError else
  let! q := get_req m i in
  let! kga := is_for_kga E m i in
  if (kga : bool) then Ok tt else
  match q_popo q with
  | None => Err EBadPOP
  | Some PoRa => verify_ra_verified E m o
  | Some (PoSig _ _) => verify_sig_pop E m 0
  | Some (PoEnc _) => let! p := req_key E q in guard (is_kem p) EValueError
  | Some (PoAgree _) => let! p := req_key E q in guard (is_ecdh p) EValueError
  end.

(** ** Templates and registration information *)

(** Models resources/ca_ra_utils.py 1469-1548 (validate_cert_template_public_key) with max_key_size 8192; every KEM key
    is taken for a post-quantum or hybrid one. *)
Definition validate_template (E : env) (t : template) (sig : option algid) (lw : bool) : result unit :=
  let! _ := guard (negb (t_null t && negb (t_san t))) EBadCertTemplate in
  let! p := catch (fun e => is_key_data e || is_value_error e) EBadCertTemplate (tmpl_key E false t) in
  let! _ := match p with
            | Some PubDh => Err EBadCertTemplate
            | Some (Pub k) =>
                match k_kind k with
                | KDsa => Err EBadAlg
                | KRsa => guard ((2048 <=? e_bits E k) && (e_bits E k <=? 8192)) EBadCertTemplate
                | _ => Ok tt
                end
            | None => Ok tt
            end in
  let! _ := match sig with
            | None => Ok tt
            | Some a =>
                match p with
                | Some (Pub k) =>
                    let! _ := guard (is_sign_kind (k_kind k)) EBadCertTemplate in
                    catch (fun e => is_value_error e || is_sig_id e) EBadCertTemplate (consistent (a_oid a) (k_kind k))
                | _ => Err EBadCertTemplate
                end
            end in
  match t_key t, p with
  | TKey d, Some (Pub k) =>
      match k_kind k with
      | KStf _ => e_stf E lw k d
      | KPq _ | KKem _ | KComp _ _ => guard (negb (e_params E d)) EBadCertTemplate
      | _ => Ok tt
      end
  | _, _ => Ok tt
  end.
Definition tkey_eqb (a b : tkey) : bool :=
  match a, b with
  | TAbsent, TAbsent => true
  | TEmpty x, TEmpty y | TKey x, TKey y => bytes_eqb x y
  | _, _ => false
  end.
(** Models resources/cmputils.py 1467-1496 (_validate_cert_request_reg_info). An absent key has no encoding. *)
Definition same_request_key (given alt : certreq) : result unit :=
  let! _ := guard (r_id given =? r_id alt) EBadRequest in
  match t_key (r_tmpl given), t_key (r_tmpl alt) with
  | TAbsent, _ => Ok tt
  | _, TAbsent => Err EPyAsn1
  | x, y => guard (tkey_eqb x y) EBadCertTemplate
  end.
(** Models resources/cmputils.py 1499-1511 (_check_unique_controls). *)
Fixpoint unique_types (l : list control) : bool :=
  match l with [] => true | c :: r => negb (existsb (fun d => String.eqb (ct_type d) (ct_type c)) r) && unique_types r end.
Definition first_of (t : string) (l : list control) : option bytes :=
  option_map ct_val (find (fun c => String.eqb (ct_type c) t) l).
(** Models resources/cmputils.py 1515-1565 (validate_cert_req_inside_reg_info). *)
Definition alt_request (E : env) (q : reqmsg) (l : list control) : result (option certreq) :=
  match first_of "id_regInfo_certReq" l with
  | None => Ok None
  | Some der =>
      let! _ := guard (unique_types l) EBadRequest in
      match e_dec E der with
      | None => Err EPyAsn1
      | Some (r, []) => let! _ := same_request_key (q_req q) r in Ok (Some r)
      | Some (_, _ :: _) => Err EBadAsn1Data
      end
  end.
(** Models resources/cmputils.py 1753-1777 (validate_reg_info_field); [e_utf8] stands for decoding the pairs. *)
Definition reg_info (E : env) (q : reqmsg) : result (option certreq) :=
  match q_info q with
  | None => Ok None
  | Some l =>
      let! alt := alt_request E q l in
      let! _ := match first_of "id_regInfo_utf8Pairs" l with
                | None => Ok tt
                | Some der => let! _ := guard (unique_types l) EBadRequest in e_utf8 E der
                end in
      Ok alt
  end.

(** ** Issuing *)

(** Models resources/certbuildutils.py 1686-1751 (build_cert_from_cert_template): the key of the certificate is that of
    the template, which has to load; [e_build] stands for the other checks and the signature. *)
Definition build (E : env) (t : template) : result template :=
  match t_key t with
  | TKey d => let! _ := e_load E d in let! _ := e_build E t in Ok t
  | _ => Err EValueError
  end.
(** Models resources/ca_ra_utils.py 1675-1794 (process_encrypted_key) and resources/ca_ra_utils.py 1603-1671 (validate_enc_key_with_id):
    [e_open] gives the private key of the decrypted EncKeyWithID and whether its identifier is the subject. *)
Definition process_encrypted_key (E : env) (m : request) (q : reqmsg) (envelope : bytes) : result issued :=
  let t := r_tmpl (q_req q) in
  let! p := tmpl_key E false t in
  match p with
  | None => Err EBadCertTemplate
  | Some pk =>
      let! (k, named) := e_open E (b_certs m) envelope in
      let! _ := guard (match pk with Pub k' => e_same E k k' | PubDh => false end) EBadPOP in
      let! _ := guard named EBadCertTemplate in
      let! t' := build E t in Ok (IPlain t')
  end.
(** Models resources/ca_ra_utils.py 1924-2012 (respond_to_key_encipherment_request) and resources/ca_ra_utils.py 3031-3112 (prepare_encr_cert_from_request). *)
Definition respond_encipherment (E : env) (m : request) (q : reqmsg) (p : privpop) : result issued :=
  let! t := build E (r_tmpl (q_req q)) in
  match p with
  | PpKey envelope => process_encrypted_key E m q envelope
  | PpNext n =>
      let! _ := guard (n =? 0) EValueError in
      let! pk := req_key E q in
      match pk with
      | Pub k => let! _ := guard (is_kem pk) EValueError in let! _ := e_wrap E k in Ok (IEnc t k)
      | PubDh => Err EValueError
      end
  | PpMac _ _ | PpOther => Err EValueError
  end.
(** Models resources/ca_ra_utils.py 1798-1920 (respond_to_key_agreement_request) and resources/ca_ra_utils.py 1551-1599 (_process_agree_mac_key_agreement); [e_agree] is the key of the CA for the class of the requested key. *)
Definition respond_agreement (E : env) (m : request) (q : reqmsg) (p : privpop) : result issued :=
  let! pk := req_key E q in
  match pk with
  | PubDh => Err EValueError
  | Pub k =>
      let! _ := guard (is_ecdh pk) EValueError in
      match p with
      | PpOther => Err EValueError
      | PpKey envelope => process_encrypted_key E m q envelope
      | PpMac a v =>
          match e_agree E k with
          | None => Err EValueError
          | Some own =>
              let! ss := l_ecdh (e_lib E) own k in
              match e_enc E (q_req q) with
              | None => Err EPyAsn1
              | Some data =>
                  let! mac := compute_mac_from_alg_id (e_lib E) (e_rnd E) ss a data in
                  let! _ := guard (bytes_eqb mac v) EBadPOP in
                  let! t := build E (r_tmpl (q_req q)) in Ok (IPlain t)
              end
          end
      | PpNext _ =>
          match e_agree E k with
          | None => Err EValueError
          | Some _ => let! _ := e_wrap E k in let! t := build E (r_tmpl (q_req q)) in Ok (IEnc t k)
          end
      end
  end.
Definition popo_alg (q : reqmsg) : option algid := match q_popo q with Some (PoSig a _) => Some a | _ => None end.
(** Models resources/ca_ra_utils.py 2016-2129 (respond_to_cert_req_msg). *)
Definition respond (E : env) (m : request) (q : reqmsg) (alt : option template) : result issued :=
  let orig := r_tmpl (q_req q) in
  let t := match alt with Some x => x | None => orig end in
  let! _ := validate_template E t (popo_alg q) true in
  match q_popo q with
  | None =>
      let! p := tmpl_key E false t in
      match p with
      | Some _ => Err EBadPOP
      | None => let! _ := e_central E orig in Ok (ICentral orig)
      end
  | Some PoRa | Some (PoSig _ _) => let! t' := build E t in Ok (IPlain t')
  | Some (PoEnc p) => respond_encipherment E m q p
  | Some (PoAgree p) => respond_agreement E m q p
  end.
(** Models resources/ca_ra_utils.py 2337-2424 (_process_one_cert_request); [e_controls] stands for
    validate_cert_request_controls on the request at an index. *)
Definition process_one (E : env) (m : request) (i : nat) (o : opts) : result issued :=
  let! q := get_req m i in
  let! _ := match q_popo q with
            | Some (PoSig a _) =>
                let! p := catch (fun e => is_key_data e || match e with EBadAsn1Data => true | _ => false end)
                                EBadCertTemplate (req_key E q) in
                match p with
                | PubDh => Err EBadPOP
                | Pub k =>
                    let! _ := guard (is_sign_kind (k_kind k)) EBadPOP in
                    catch is_sig_id EBadPOP (consistent (a_oid a) (k_kind k))
                end
            | Some _ => Ok tt
            | None => let! b := is_for_kga E m 0 in guard (b : bool) EBadCertTemplate
            end in
  let! alt := reg_info E q in
  let! _ := validate_template E (r_tmpl (q_req q)) None (o_lw o) in
  let! _ := e_controls E i (q_req q) in
  let! _ := verify_popo E m i o in
  respond E m q (option_map r_tmpl alt).
(** Models resources/ca_ra_utils.py 2427-2464 (_process_cert_requests): the identifiers and certificates of the
    responses. *)
Fixpoint process_from (E : env) (m : request) (o : opts) (i : nat) (l : list reqmsg) : result (list (Z * issued)) :=
  match l with
  | [] => Ok []
  | q :: r =>
      let! c := process_one E m i o in
      let! rest := process_from E m o (S i) r in
      Ok ((r_id (q_req q), c) :: rest)
  end.
Definition process_all (E : env) (m : request) (o : opts) : result (list (Z * issued)) := process_from E m o 0 (b_reqs m).

(** ** Batches *)

(** Models resources/ca_ra_utils.py 2512-2546 (validate_cert_req_id_nums). *)
Definition zmem (x : Z) (l : list Z) : bool := existsb (Z.eqb x) l.
Fixpoint no_dup (l : list Z) : bool := match l with [] => true | x :: r => negb (zmem x r) && no_dup r end.
Definition validate_ids (m : request) : result unit :=
  if String.eqb (b_name m) "p10cr" then
    match b_csr m with Some s => guard (s_version s =? 0) EBadCertTemplate | None => Err EValueError end
  else
    match b_reqs m with
    | [] => Err EBadRequest
    | [q] => guard (r_id (q_req q) =? 0) EBadRequest
    | l =>
        let ids := List.map (fun q => r_id (q_req q)) l in
        let! _ := guard (no_dup ids) EBadRequest in
        guard (forallb (fun n => zmem (Z.of_nat n) ids) (seq 0 (length l))) EBadRequest
    end.
(** Models resources/ca_ra_utils.py 2664-2717 (enforce_lwcmp_for_ca). *)
Definition enforce_lwcmp (m : request) : result unit :=
  if String.eqb (b_name m) "p10cr" then Ok tt
  else if str_mem (b_name m) ["ir"; "cr"; "kur"; "crr"] then
    match b_reqs m with
    | [q] => guard (r_id (q_req q) =? 0) EBadRequest
    | _ => Err EBadRequest
    end
  else if str_mem (b_name m) ["certConf"; "rr"] then guard (Nat.eqb (b_entries m) 1) EBadRequest
  else Err EBadRequest.
(** Models resources/ca_ra_utils.py 2721-2829 (build_ip_cmp_message) for a request that is not a p10cr. *)
Definition build_ip (E : env) (m : request) (o : opts) : result (list (Z * issued)) :=
  let! _ := if o_lw o then enforce_lwcmp m else Ok tt in process_all E m o.
(** Models resources/certutils.py 2174-2207 (verify_csr_signature). *)
Definition verify_csr (E : env) (s : csr) : result unit :=
  match t_key (s_tmpl s) with
  | TKey d =>
      let! p := e_load E d in
      match p with
      | PubDh => Err EValueError
      | Pub k =>
          let! _ := guard (is_sign_kind (k_kind k)) EValueError in
          catch (fun e => match e with EInvalidSignature | EInvalidAltSignature => true | _ => false end) EBadPOP
                (verify_signature_with_alg_id (e_lib E) k (s_alg s) (s_der s) (s_sig s))
      end
  | _ => Err EPyAsn1
  end.
(** Models resources/ca_ra_utils.py 2262-2334 (build_cp_from_p10cr) without a given certificate. *)
Definition build_p10 (E : env) (m : request) : result (list (Z * issued)) :=
  match String.eqb (b_name m) "p10cr", b_csr m with
  | true, Some s =>
      let! _ := verify_csr E s in
      let! _ := guard (negb (t_null (s_tmpl s) && negb (t_san (s_tmpl s)))) EBadCertTemplate in
      let! t := build E (s_tmpl s) in Ok [(-1, IPlain t)]
  | _, _ => Err EValueError
  end.

(** ** Key updates *)

(** Models resources/ca_ra_utils.py 3912-3937 (_validate_popo_kur) and
    resources/ca_ra_utils.py 4036-4046 (get_popo_from_pkimessage). Reading an
    alternative of a pyasn1 CHOICE that is not the chosen one makes it the chosen one, so after the first test every
    other proof is an unknown one. *)
Definition validate_popo_kur (E : env) (m : request) : result unit :=
  let! q := get_req m 0 in
  match q_popo q with
  | None => let! b := is_for_kga E m 0 in guard (b : bool) EBadRequest
  | Some (PoSig _ _) => verify_pop_signature E m 0
  | Some _ => Err EBadPOP
  end.
(** Models resources/ca_ra_utils.py 3794-3845 (_validate_old_cert_id). *)
Definition validate_old (E : env) (cert ca : cert) (val : bytes) : result unit :=
  match e_old E val with
  | None => Err EBadAsn1Data
  | Some (_, _ :: _) => Err EBadAsn1Data
  | Some ((issuer, serial), []) =>
      let! _ := guard (e_issuer E issuer ca) EBadCertId in
      guard (serial =? e_serial E cert) EBadCertId
  end.
Fixpoint each_old (E : env) (cert ca : cert) (l : list control) : result unit :=
  match l with
  | [] => Ok tt
  | c :: r =>
      let! _ := if String.eqb (ct_type c) "id_regCtrl_oldCertID" then validate_old E cert ca (ct_val c) else Ok tt in
      each_old E cert ca r
  end.
(** Models resources/ca_ra_utils.py 3848-3909 (validate_kur_controls). *)
Definition validate_kur_controls (E : env) (m : request) (ca : option cert) (must : bool) : result unit :=
  let! q := get_req m 0 in
  match r_controls (q_req q) with
  | None => if must then Err EBadRequest else Ok tt
  | Some l =>
      match b_certs m with
      | [] => Err EBadMessageCheck
      | c :: rest =>
          let! ca' := match ca with
                      | Some x => Ok x
                      | None => match rest with x :: _ => Ok x | [] => Err EBadMessageCheck end
                      end in
          each_old E c ca' l
      end
  end.
(** Models resources/ca_ra_utils.py 3943-4032 (build_kup_from_kur). Loading the key of an absent certificate is modelled
    as a ValueError. *)
Definition build_kup (E : env) (m : request) (must allow_same : bool) : result (list (Z * issued)) :=
  let! _ := guard (String.eqb (b_name m) "kur") EValueError in
  let! _ := enforce_lwcmp m in
  let! _ := validate_popo_kur E m in
  let! q := get_req m 0 in
  let! _ := if allow_same then Ok tt else
            let! p := tmpl_key E false (r_tmpl (q_req q)) in
            match p with
            | None => Ok tt
            | Some pk =>
                match b_certs m with
                | [] => Err EValueError
                | c :: _ =>
                    let! old := c_pub c in
                    guard (negb (match pk with Pub k => e_same E k old | PubDh => false end)) EBadCertTemplate
                end
            end in
  let! _ := validate_kur_controls E m None must in
  let! _ := guard (r_id (q_req q) =? 0) EBadRequest in
  let! kga := is_for_kga E m 0 in
  if (kga : bool) then let! _ := e_central E (r_tmpl (q_req q)) in Ok [(0, ICentral (r_tmpl (q_req q)))]
  else let! t := build E (r_tmpl (q_req q)) in Ok [(0, IPlain t)].

(** ** Cross-certification *)

Definition set_ku (t : template) (l : list string) : template :=
  {| t_key := t_key t; t_null := t_null t; t_san := t_san t; t_version := t_version t; t_nb := t_nb t; t_na := t_na t;
     t_inull := t_inull t; t_ian := t_ian t; t_alg := t_alg t; t_ku := Some (Some l); t_bc := t_bc t; t_rest := t_rest t |}.
Definition set_bc (t : template) (b : bool) : template :=
  {| t_key := t_key t; t_null := t_null t; t_san := t_san t; t_version := t_version t; t_nb := t_nb t; t_na := t_na t;
     t_inull := t_inull t; t_ian := t_ian t; t_alg := t_alg t; t_ku := t_ku t; t_bc := Some b; t_rest := t_rest t |}.
(** Models resources/ca_ra_utils.py 4304-4344 (_validate_ccr_cert_template). *)
Definition validate_ccr_template (t : template) : result unit :=
  let! _ := match t_version t with Some v => guard (negb (v =? 1)) EBadCertTemplate | None => Err EBadCertTemplate end in
  let! _ := guard (t_nb t) EBadCertTemplate in
  let! _ := guard (t_na t) EBadCertTemplate in
  let! _ := guard (negb (t_inull t && negb (t_ian t))) EBadCertTemplate in
  let! _ := guard (negb (t_null t && negb (t_san t))) EBadCertTemplate in
  guard (t_alg t) EBadCertTemplate.
(** Models resources/ca_ra_utils.py 4488-4512 (_ensure_key_usage) and resources/ca_ra_utils.py 4515-4521 (_ensure_basic_constraints). *)
Definition ensure_key_usage (t : template) : result template :=
  match t_ku t with
  | None => Ok (set_ku t ["digitalSignature"; "keyCertSign"])
  | Some None => Err EBadDataFormat
  | Some (Some l) => let! _ := guard (str_mem "keyCertSign" l) EBadCertTemplate in Ok t
  end.
Definition ensure_basic_constraints (t : template) : template := match t_bc t with None => set_bc t true | Some _ => t end.
(** Models resources/ca_ra_utils.py 4347-4414 (_process_crr_single) and resources/ca_ra_utils.py 452-484 (validate_cert_req_id). *)
Definition process_ccr (E : env) (m : request) : result issued :=
  let! q := get_req m 0 in
  let! p := catch is_value_error EBadCertTemplate (req_key E q) in
  let! _ := match p with Pub k => guard (is_sign_kind (k_kind k)) EBadCertTemplate | PubDh => Err EBadCertTemplate end in
  let! _ := match q_popo q with Some (PoSig _ _) => verify_pop_signature E m 0 | _ => Err EBadPOP end in
  let! _ := guard (r_id (q_req q) =? 0) EBadRequest in
  let! _ := validate_ccr_template (r_tmpl (q_req q)) in
  let! t := ensure_key_usage (r_tmpl (q_req q)) in
  let! t' := build E (ensure_basic_constraints t) in Ok (IPlain t').
(** Models resources/ca_ra_utils.py 4418-4485 (build_ccp_from_ccr) without a given certificate. *)
Definition build_ccp (E : env) (m : request) : result (list (Z * issued)) :=
  let! _ := guard (String.eqb (b_name m) "ccr") EValueError in
  let! _ := guard (Nat.eqb (length (b_reqs m)) 1) EBadRequest in
  let! c := process_ccr E m in Ok [(0, c)].

(** ** The server *)

(** Models the choice of mock_ca/cert_req_handler.py 658-716 (process_cert_request) with the calls of
    process_ir, process_cr, process_p10cr, process_kur and handle_cross_cert_req for a message whose header, protection
    and sender were accepted. A key update protected with a KEM takes the way of [build_ip] without the verification of
    raVerified. *)
Definition serve (E : env) (m : request) (o : opts) (kem same : bool) : result (list (Z * issued)) :=
  let! _ := validate_ids m in
  if String.eqb (b_name m) "ir" then build_ip E m o
  else if String.eqb (b_name m) "cr" then process_all E m {| o_ra := o_ra o; o_chain := o_chain o; o_eku := true; o_lw := true |}
  else if String.eqb (b_name m) "p10cr" then build_p10 E m
  else if String.eqb (b_name m) "kur" then
    if kem then
      let! _ := guard (match b_certs m with [] => false | _ => true end) EBadRequest in
      build_ip E m {| o_ra := false; o_chain := o_chain o; o_eku := o_eku o; o_lw := o_lw o |}
    else build_kup E m false same
  else if String.eqb (b_name m) "ccr" then build_ccp E m
  else Err ENotImplemented.
