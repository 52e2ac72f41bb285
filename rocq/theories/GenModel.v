(** General messages: the questions an end entity asks a CA (CA certificates, root update, request template, CRLs, key
    types, ...), the checks on the answers (resources/general_msg_utils.py) and the answering side of the Mock CA
    (mock_ca/general_msg_handler.py).

    Simplifications.  A certificate, a CRL and a shared secret are byte strings.  Logging and the free texts of the
    answers are not modelled.  An [infoValue] is absent or a byte string; assigning an ASN.1 object to it stores the
    object's encoding.  pyasn1's decoders and encoders, the chain builders, OpenSSL, pkilint, the signature check of a
    certificate, KEM keys and the decryption of an [EnvelopedData] are the fields of [lib]. *)
From Coq Require Import String.
From Verif Require Import Prelude PyStr.
Open Scope string_scope.
Open Scope Z_scope.
Open Scope list_scope.
Local Notation length := List.length.

Definition oid := string.
Definition cert := bytes.
Definition crl := bytes.

(** A DER codec: [decoder.decode] gives the value and the remainder, or raises PyAsn1Error. *)
Record der (A : Type) := { enc : A -> bytes; dec : bytes -> option (A * bytes) }.
Arguments enc {A}. Arguments dec {A}.

(** [InfoTypeAndValue]: the [infoType] and the optional [infoValue]. *)
Record item := { it : oid; iv : option bytes }.

(** The parts of a [PKIMessage] that are read: the name of the body and its entries, extraCerts, pvno, transactionID. *)
Record msg := { body : string; entries : list item; extra : list cert; pvno : Z; txid : option bytes }.

(** [expected_size: Strint]: an integer, or a string as Robot Framework hands it over. *)
Inductive size := SInt (n : Z) | SStr (s : string).

(** [AlgorithmIdentifier]. *)
Record alg := { a_oid : oid; a_par : option bytes }.

(** [RootCaKeyUpdateValue]; every field may be absent after decoding. *)
Record update := { u_nwo : option cert; u_nwn : option cert; u_own : option cert }.

(** [CertReqTemplateValue]: which of the five forbidden fields of the template are present, and [keySpec]. *)
Record template := { t_key : bool; t_serial : bool; t_sig : bool; t_iuid : bool; t_suid : bool;
                     t_spec : option (list (oid * bytes)) }.

(** [EncryptedKey]: the deprecated [EncryptedValue] or [EnvelopedData]. *)
Inductive enckey := EncValue | EnvData (d : bytes).

(** The source of a [CRLStatus]: the issuer's names, or the distribution point's full or relative name. *)
Inductive source := Issuer (n : bytes) | FullName (n : bytes) | Relative (n : bytes).
(** [CRLStatus]: the source and the optional [thisUpdate] in microseconds. *)
Record status := { s_src : source; s_time : option Z }.

Record lib := {
  l_int : string -> option Z;                    (* Python's int(str) *)
  l_certs : der (list cert);                     (* CaCertsValue *)
  l_cert : der cert;                             (* RootCaCertValue, CAProtEncCertValue *)
  l_update : der update;                         (* RootCaKeyUpdateValue *)
  l_tmpl : der template;                         (* CertReqTemplateValue *)
  l_len : der Z;                                 (* RsaKeyLenCtrl *)
  l_alg : der alg;                               (* AlgIdCtrl, AlgorithmIdentifier *)
  l_curve : der oid;                             (* ECParameters: namedCurve *)
  l_algs : der (list alg);                       (* SignKeyPairTypesValue, AlgorithmIdentifiers *)
  l_crls : der (list crl);                       (* CRLsValue *)
  l_crl : der crl;                               (* CurrentCRLValue, CertificateList *)
  l_tags : der (list string);                    (* SuppLangTagsValue *)
  l_profs : der (list string);                   (* CertProfileValue *)
  l_kem : der (oid * bytes);                     (* KemCiphertextInfo: algorithm and ciphertext *)
  l_oids : der (list oid);                       (* OIDs *)
  l_oid : der oid;                               (* OBJECT IDENTIFIER *)
  l_null : der unit;                             (* ImplicitConfirmValue *)
  l_enckey : der enckey;                         (* EncryptedKey *)
  l_stats : der (list status);                   (* CRLStatusListValue *)
  l_blank : cert;                                (* the empty object that pyasn1 makes for index 0 of an empty SequenceOf *)
  l_chain : cert -> list cert -> result (list cert);    (* certutils.build_chain_from_list *)
  l_openssl : list cert -> bool -> result unit;  (* certutils.verify_cert_chain_openssl *)
  l_signer : cert -> cert -> result bool;        (* certutils.check_is_cert_signer: certificate, possible issuer *)
  l_key : cert -> result bytes;                  (* certutils.load_public_key_from_cert *)
  l_lint : cert -> result unit;                  (* certutils.validate_certificate_pkilint *)
  l_crl_lint : crl -> result unit;               (* cert_linters_utils.validate_crl_pkilint *)
  l_crl_ok : crl -> result unit;                 (* build_crl_chain_from_list, then verify_openssl_crl *)
  l_dir_chain : cert -> result (list cert);      (* certutils.build_cert_chain_from_dir *)
  l_anchor : cert -> result unit;                (* certutils.certificates_are_trustanchors *)
  l_env_key : bytes -> bool;                     (* isinstance(key, EnvDataPublicKey) *)
  l_curve_name : oid -> option string;           (* CURVE_OID_2_NAME *)
  l_curves : list oid;                           (* the OIDs of CURVE_NAMES_TO_INSTANCES *)
  l_known : oid -> option string;                (* ALL_KNOWN_OIDS_2_NAME *)
  l_pq_oids : list oid;                          (* PQ_SIG_OID_2_NAME, then HYBRID_SIG_OID_2_NAME *)
  l_kem_pub : bytes -> bool;                     (* isinstance(key, KEMPublicKey) *)
  l_kem_oid : bytes -> result oid;               (* get_kem_oid_from_key *)
  l_encaps : bytes -> result (bytes * bytes);    (* KEM encapsulation: shared secret, ciphertext *)
  l_decaps : bytes -> bytes -> result bytes;     (* KEM decapsulation: private key, ciphertext *)
  l_open : msg -> bytes -> result bytes;         (* validate_enveloped_data with the handler's password and key *)
  l_find : bytes -> option string -> result bool;  (* find_name_inside_general_names for the root's subject *)
  l_rel : bytes -> bool;                         (* find_rel_dis_name_in_name for the root's subject *)
  l_text : bytes -> result unit                  (* get_openssl_name_notation of the issuer's names, for the text *)
}.

(** ** Object identifiers: pyasn1's rfc9480, rfc9481, rfc5480 and pq_logic/tmp_oids.py line 98 *)
Definition id_caProtEncCert := "1.3.6.1.5.5.7.4.1".
Definition id_signKeyPairTypes := "1.3.6.1.5.5.7.4.2".
Definition id_encKeyPairTypes := "1.3.6.1.5.5.7.4.3".
Definition id_preferredSymmAlg := "1.3.6.1.5.5.7.4.4".
Definition id_currentCRL := "1.3.6.1.5.5.7.4.6".
Definition id_unsupportedOIDs := "1.3.6.1.5.5.7.4.7".
Definition id_keyPairParamReq := "1.3.6.1.5.5.7.4.10".
Definition id_revPassphrase := "1.3.6.1.5.5.7.4.12".
Definition id_implicitConfirm := "1.3.6.1.5.5.7.4.13".
Definition id_suppLangTags := "1.3.6.1.5.5.7.4.16".
Definition id_caCerts := "1.3.6.1.5.5.7.4.17".
Definition id_rootCaKeyUpdate := "1.3.6.1.5.5.7.4.18".
Definition id_certReqTemplate := "1.3.6.1.5.5.7.4.19".
Definition id_rootCaCert := "1.3.6.1.5.5.7.4.20".
Definition id_certProfile := "1.3.6.1.5.5.7.4.21".
Definition id_crlStatusList := "1.3.6.1.5.5.7.4.22".
Definition id_crls := "1.3.6.1.5.5.7.4.23".
Definition id_KemCiphertextInfo := "1.3.6.1.5.5.7.4.9999".
Definition id_rsaKeyLen := "1.3.6.1.5.5.7.5.1.12".
Definition id_algId := "1.3.6.1.5.5.7.5.1.11".
Definition id_Ed25519 := "1.3.101.112".
Definition id_Ed448 := "1.3.101.113".
Definition id_X25519 := "1.3.101.110".
Definition id_X448 := "1.3.101.111".
Definition id_rsa := "1.2.840.113549.1.1.1".
Definition id_ec := "1.2.840.10045.2.1".
Definition id_aes128 := "2.16.840.1.101.3.4.1.2".
Definition id_aes192 := "2.16.840.1.101.3.4.1.22".
Definition id_aes256 := "2.16.840.1.101.3.4.1.42".

(** ** Decoding *)

(** [decoder.decode(value, spec)]: PyAsn1Error for an absent value (pyasn1 refuses to read a schema object) and for
    data that do not decode. *)
Definition decode {A} (c : der A) (v : option bytes) : result (A * bytes) :=
  match v with
  | None => Err EPyAsn1
  | Some b => match dec c b with Some p => Ok p | None => Err EPyAsn1 end
  end.

(** resources/asn1utils.py lines 736-769, [try_decode_pyasn1]: [value.asOctets()] fails with PyAsn1Error for an absent
    value, data that do not decode give BadAsn1Data. *)
Definition try_decode {A} (c : der A) (v : option bytes) : result (A * bytes) :=
  match v with
  | None => Err EPyAsn1
  | Some b => match dec c b with Some p => Ok p | None => Err EBadAsn1Data end
  end.

(** [if rest: raise ...]. *)
Definition no_rest {A} (p : A * bytes) (e : exn) : result A :=
  match snd p with [] => Ok (fst p) | _ => Err e end.

(** resources/cmputils.py lines 3971-3983, [get_value_from_seq_of_info_value_field]: the value of the first entry of
    the type; [None] when there is none. *)
Fixpoint get_value (l : list item) (o : oid) : option (option bytes) :=
  match l with
  | [] => None
  | x :: r => if String.eqb (it x) o then Some (iv x) else get_value r o
  end.

(** ** Checks of an answer *)

(** resources/general_msg_utils.py lines 856-863, [validate_general_response]: an unexpected number of entries is only
    logged; [int(expected_size)] raises ValueError for a string that is not a number. *)
Definition general_response (L : lib) (m : msg) (n : size) : result unit :=
  let! _ := guard (String.eqb (body m) "genp") EValueError in
  match n with
  | SInt _ => Ok tt
  | SStr s => match l_int L s with Some _ => Ok tt | None => Err EValueError end
  end.

(** [len(genp_content) != expected_size]: an integer never equals a string. *)
Definition same_size (m : msg) (n : size) : bool :=
  match n with SInt z => Z.of_nat (length (entries m)) =? z | SStr _ => false end.

(** [value is None -> raise ValueError]. *)
Definition entry_of (m : msg) (o : oid) : result (option bytes) :=
  match get_value (entries m) o with Some v => Ok v | None => Err EValueError end.

(** resources/general_msg_utils.py lines 122-161, [validate_get_ca_certs]. *)
Definition get_ca_certs (L : lib) (m : msg) (must : bool) (ee : option cert) (n : size) (crlc : bool)
  : result (option (list cert)) :=
  let! _ := general_response L m n in
  if negb (same_size m n) then Ok None else
  let! v := entry_of m id_caCerts in
  let! _ := guard (negb (match v with None => must | Some _ => false end)) EValueError in
  let! cs := match decode (l_certs L) v with Ok p => Ok (fst p) | Err _ => Err EValueError end in
  let! chain :=
    match ee with
    | Some e => l_chain L e cs
    | None =>
        let cs := match cs with [] => [l_blank L] | _ => cs end in
        let! c1 := l_chain L (hd (l_blank L) cs) (tl cs) in
        let! c2 := l_chain L (last cs (l_blank L)) (removelast cs) in
        Ok (if (length c1 <? length c2)%nat then c2 else c1)
    end in
  let! _ := l_openssl L chain crlc in
  Ok (Some chain).

(** resources/general_msg_utils.py lines 269-298, [validate_root_ca_key_update_value_structure]. *)
Definition update_structure (L : lib) (old nwn nwo : cert) (own : option cert) : result unit :=
  let! a := l_signer L nwn nwn in
  let! _ := guard a EValueError in
  let! b := l_signer L nwo old in
  let! _ := guard b EValueError in
  let! _ :=
    match own with
    | None => Ok tt
    | Some o =>
        let! c := l_signer L o nwn in
        let! _ := guard c EValueError in
        let! k := l_key L old in
        let! k' := l_key L o in
        guard (bytes_eqb k k') EValueError
    end in
  l_lint L nwn.

(** resources/general_msg_utils.py lines 236-265, [process_root_ca_update]. *)
Definition process_update (L : lib) (u : update) (old : option cert) : result unit :=
  match u_nwo u with
  | None => Err EValueError
  | Some nwo =>
      match u_nwn u with
      | None => Err EValueError
      | Some nwn =>
          match old with
          | None => Ok tt
          | Some o => update_structure L o nwn nwo (u_own u)
          end
      end
  end.

(** resources/general_msg_utils.py lines 212-232, [validate_get_root_ca_cert_update]; the old certificate is already
    loaded. *)
Definition root_update (L : lib) (m : msg) (old : option cert) (n : size) : result unit :=
  let! _ := general_response L m n in
  let! v := entry_of m id_rootCaKeyUpdate in
  match v with
  | None => Ok tt
  | Some _ =>
      let! p := decode (l_update L) v in
      let! u := no_rest p EValueError in
      process_update L u old
  end.

(** resources/general_msg_utils.py lines 314-318, [_get_type_inside_controls]. *)
Fixpoint control (l : list (oid * bytes)) (o : oid) : option bytes :=
  match l with
  | [] => None
  | (t, v) :: r => if String.eqb t o then Some v else control r o
  end.

(** resources/general_msg_utils.py lines 363-404, [_validate_id_reg_ctrl_alg_id]: for the Edwards curves the code
    raises when the parameters are absent. *)
Definition alg_id_ctrl (L : lib) (v : bytes) : result unit :=
  let! p := decode (l_alg L) (Some v) in
  let! a := no_rest p EValueError in
  if String.eqb (a_oid a) id_Ed448 || String.eqb (a_oid a) id_Ed25519 then
    guard (match a_par a with Some _ => true | None => false end) EValueError
  else if String.eqb (a_oid a) id_rsa then Err EValueError
  else if String.eqb (a_oid a) id_ec then
    match a_par a with
    | None => Err EValueError
    | Some b =>
        let! q := decode (l_curve L) (Some b) in
        let! c := no_rest q EValueError in
        guard (match l_curve_name L c with Some _ => true | None => false end) EValueError
    end
  else Err EValueError.

(** resources/general_msg_utils.py lines 322-360, [check_controls_for_cert_temp]; the [len] of an absent sequence
    is 0. *)
Definition check_controls (L : lib) (c : option (list (oid * bytes))) (must : bool) (rmin : Z) : result unit :=
  let! _ := guard (negb (match c with None => must | Some _ => false end)) EValueError in
  let l := match c with Some l => l | None => [] end in
  let! _ := guard (length l =? 1)%nat EValueError in
  let! _ :=
    match control l id_rsaKeyLen with
    | None => Ok tt
    | Some v =>
        let! p := decode (l_len L) (Some v) in
        let! z := no_rest p EValueError in
        guard (negb (z <? rmin)) EValueError
    end in
  match control l id_algId with
  | None => Ok tt
  | Some v => alg_id_ctrl L v
  end.

(** resources/general_msg_utils.py lines 407-430, [_check_cert_template_for_cert_temp_req]. *)
Definition check_template (t : template) : result unit :=
  let! _ := guard (negb (t_key t)) EValueError in
  let! _ := guard (negb (t_serial t)) EValueError in
  let! _ := guard (negb (t_sig t)) EValueError in
  let! _ := guard (negb (t_iuid t)) EValueError in
  guard (negb (t_suid t)) EValueError.

(** resources/general_msg_utils.py lines 463-488, [validate_get_certificate_request_template]; the minimum RSA length
    is the default, 2048. *)
Definition request_template (L : lib) (m : msg) (must controls : bool) (n : size) : result unit :=
  let! _ := general_response L m n in
  let! v := entry_of m id_certReqTemplate in
  let! _ := guard (negb (match v with None => must | Some _ => false end)) EValueError in
  let! p := decode (l_tmpl L) v in
  let! t := no_rest p EValueError in
  let! _ := check_controls L (t_spec t) controls 2048 in
  check_template t.

(** resources/general_msg_utils.py lines 689-701, [_validate_crls]: an invalid CRL raises ValueError; other exceptions
    of the library pass through. *)
Fixpoint validate_crls (L : lib) (l : list crl) : result unit :=
  match l with
  | [] => Ok tt
  | c :: r => let! _ := l_crl_ok L c in validate_crls L r
  end.

(** resources/general_msg_utils.py lines 743-777, [validate_crl_update_retrieval]. *)
Definition crl_update (L : lib) (m : msg) (must : bool) (n : size) (k : Z) : result unit :=
  let! _ := general_response L m n in
  let! v := entry_of m id_crls in
  match v with
  | Some _ =>
      let! p := decode (l_crls L) v in
      let! l := no_rest p EValueError in
      let! _ := guard (Z.of_nat (length l) =? k) EValueError in
      validate_crls L l
  | None => guard (negb must) EValueError
  end.

(** resources/general_msg_utils.py lines 818-832, [validate_current_crl]. *)
Definition current_crl (L : lib) (m : msg) (n : size) : result unit :=
  let! _ := general_response L m n in
  let! v := entry_of m id_currentCRL in
  let! p := decode (l_crl L) v in
  let! c := no_rest p EValueError in
  l_crl_lint L c.

(** resources/general_msg_utils.py lines 1037-1070, [validate_ca_protocol_encr_cert]. *)
Definition prot_enc_cert (L : lib) (m : msg) (n : size) : result (option cert) :=
  let! _ := general_response L m n in
  let! v := entry_of m id_caProtEncCert in
  match v with
  | None => Ok None
  | Some _ =>
      let! p := try_decode (l_cert L) v in
      let! c := no_rest p EBadAsn1Data in
      let! chain := l_dir_chain L c in
      let! _ := match chain with [] => Err EIndexError | _ => l_anchor L (last chain c) end in
      let! _ := l_openssl L chain false in
      let! k := l_key L c in
      let! _ := guard (l_env_key L k) EValueError in
      Ok (Some c)
  end.

(** resources/general_msg_utils.py lines 1120-1136, [validate_signing_key_types]. *)
Definition signing_types (L : lib) (m : msg) (n : size) : result unit :=
  let! _ := general_response L m n in
  let! v := entry_of m id_signKeyPairTypes in
  let! p := decode (l_algs L) v in
  let! _ := no_rest p EBadAsn1Data in
  Ok tt.

(** resources/oidutils.py lines 842-848, [ENC_KEY_AGREEMENT_TYPES_OID_2_NAME]; the curves are added last. *)
Definition enc_name (L : lib) (o : oid) : option string :=
  match l_curve_name L o with
  | Some n => Some n
  | None => if String.eqb o id_rsa then Some "rsa"
            else if String.eqb o id_X25519 then Some "x25519"
            else if String.eqb o id_X448 then Some "x448" else None
  end.

(** resources/general_msg_utils.py lines 1185-1203, [_check_ec_alg_id]. *)
Definition ec_alg_id (L : lib) (a : alg) : result string :=
  match a_par a with
  | None => Err EValueError
  | Some b =>
      let! p := decode (l_curve L) (Some b) in
      let! c := no_rest p EBadAsn1Data in
      match l_curve_name L c with Some s => Ok s | None => Err EValueError end
  end.

(** resources/general_msg_utils.py lines 1254-1268, the loop's body. *)
Definition enc_alg (L : lib) (a : alg) : result string :=
  if String.eqb (a_oid a) id_ec then ec_alg_id L a
  else match enc_name L (a_oid a) with Some s => Ok s | None => Err EValueError end.

(** resources/general_msg_utils.py lines 1233-1270, [validate_encr_and_key_agreement_types]. *)
Definition enc_types (L : lib) (m : msg) (n : size) : result (list string) :=
  let! _ := general_response L m n in
  let! v := entry_of m id_encKeyPairTypes in
  let! _ := guard (match v with Some _ => true | None => false end) EValueError in
  let! p := decode (l_algs L) v in
  let! l := no_rest p EBadAsn1Data in
  let! _ := guard (negb (length l =? 0)%nat) EValueError in
  mapM (enc_alg L) l.

(** resources/oid_mapping.py lines 250-259, [may_return_oid_to_name]. *)
Definition oid_name (L : lib) (o : oid) : string := match l_known L o with Some n => n | None => o end.

(** resources/general_msg_utils.py lines 1315-1341, [validate_preferred_sym_alg]; the table is
    resources/oidutils.py lines 198-204 and 285-286. *)
Definition sym_alg (L : lib) (m : msg) (n : size) : result string :=
  let! _ := general_response L m n in
  let! v := entry_of m id_preferredSymmAlg in
  let! _ := guard (match v with Some _ => true | None => false end) EValueError in
  let! p := try_decode (l_alg L) v in
  let! a := no_rest p EBadAsn1Data in
  let! _ := guard (str_mem (a_oid a) [id_aes128; id_aes192; id_aes256]) EValueError in
  Ok (oid_name L (a_oid a)).

(** resources/general_msg_utils.py lines 1434-1441, [validate_revocation_passphrase_response] with index 0; pyasn1
    makes an empty entry for index 0 of an empty body, whose type cannot be read. *)
Definition passphrase_response (L : lib) (m : msg) (n : size) : result unit :=
  let! _ := general_response L m n in
  match entries m with
  | [] => Err EPyAsn1
  | x :: _ =>
      let! _ := guard (String.eqb (it x) id_revPassphrase) EValueError in
      guard (match iv x with Some _ => false | None => true end) EValueError
  end.

(** resources/general_msg_utils.py lines 1508-1522, [validate_supported_language_tags]. *)
Definition language_tags (L : lib) (m : msg) (n : size) : result unit :=
  let! _ := general_response L m n in
  let! v := entry_of m id_suppLangTags in
  let! p := decode (l_tags L) v in
  let! l := no_rest p EBadAsn1Data in
  guard (length l =? 1)%nat EValueError.

(** ** KEM ciphertexts *)

(** resources/general_msg_utils.py lines 1549-1553, [validate_genm_message_size]. *)
Definition genm_size (m : msg) (n : Z) : result unit :=
  let! _ := guard (String.eqb (body m) "genm") EValueError in
  guard (Z.of_nat (length (entries m)) =? n) EValueError.

(** resources/general_msg_utils.py lines 1583-1616, [_prepare_kem_ct_info] for a public key, without a ciphertext, a
    CA key and manipulation: the shared secret and the entry. *)
Definition kem_entry (L : lib) (k : bytes) : result (bytes * item) :=
  let! sc := l_encaps L k in
  let! o := l_kem_oid L k in
  Ok (fst sc, {| it := id_KemCiphertextInfo; iv := Some (enc (l_kem L) (o, snd sc)) |}).

(** resources/general_msg_utils.py lines 1646-1677, [build_genp_kem_ct_info_from_genm]: the shared secret and the
    entries of the answer; the header is not modelled. *)
Definition genp_kem (L : lib) (m : msg) (n : Z) : result (bytes * list item) :=
  let! _ := genm_size m n in
  let! _ := entry_of m id_KemCiphertextInfo in
  match extra m with
  | [] => Err EValueError
  | c :: _ =>
      let! k := l_key L c in
      let! _ := guard (l_kem_pub L k) EValueError in
      let! p := kem_entry L k in
      Ok (fst p, [snd p])
  end.

(** resources/general_msg_utils.py lines 1708-1733, [validate_genp_kem_ct_info]; [sk] is [None] for a key that is not
    a KEM private key. *)
Definition validate_kem (L : lib) (m : msg) (sk : option bytes) (n : size) : result bytes :=
  let! _ := general_response L m n in
  let! v := entry_of m id_KemCiphertextInfo in
  let! _ := guard (match v with Some _ => true | None => false end) EValueError in
  let! p := try_decode (l_kem L) v in
  let! oc := no_rest p EBadAsn1Data in
  match sk with
  | None => Err EValueError
  | Some k => l_decaps L k (snd oc)
  end.

(** ** The handler of the Mock CA *)

(** mock_ca/general_msg_handler.py lines 123-146: the fields of the handler that are read. *)
Record conf := {
  f_lwcmp : bool; f_root : cert; f_chain : list cert; f_prot : option cert; f_rsa : Z; f_env : option (list cert);
  f_url : string; f_implicit : bool; f_profiles : list string
}.

(** mock_ca/general_msg_handler.py lines 81-93 and 142: the revocation passphrases, the shared secrets by transaction
    (a dictionary: the newest binding of a transaction first) and [add_env_data_certs]. *)
Record st := { phrases : list bytes; secrets : list (bytes * bytes); pending : bool }.

(** The world outside the handler while one message is processed: the CRL that the revocation database produces, by
    the number of the status that asks for it, the new root certificate (lines 444-448) and the clock. *)
Record env := { e_crl : nat -> result crl; e_update : result update; e_now : Z }.

(** mock_ca/general_msg_handler.py lines 58-70, [ABSENT_INFO_TYPES]. *)
Definition absent_types : list oid :=
  [id_caProtEncCert; id_encKeyPairTypes; id_signKeyPairTypes; id_keyPairParamReq; id_preferredSymmAlg; id_caCerts;
   id_currentCRL; id_implicitConfirm; id_certReqTemplate; id_KemCiphertextInfo].

(** mock_ca/general_msg_handler.py lines 148-154, [_check_general_message]. *)
Definition check_genm (F : conf) (m : msg) : result unit :=
  let! _ := guard (negb (f_lwcmp F && (1 <? length (entries m))%nat)) EBadRequest in
  guard (negb (length (entries m) =? 0)%nat) EBadRequest.

Definition is_set (e : item) : bool := match iv e with Some _ => true | None => false end.

(** mock_ca/general_msg_handler.py lines 156-161, [process_absent_info_type]; BadValueBehavior is a BadRequest. *)
Definition check_absent (e : item) : result unit :=
  guard (negb (str_mem (it e) absent_types && is_set e)) EBadRequest.

(** mock_ca/general_msg_handler.py lines 73-78, [_try_decode_mock_ca] after [asOctets]. *)
Definition mock_decode {A} (c : der A) (v : option bytes) : result A :=
  let! p := try_decode c v in no_rest p EBadAsn1Data.

(** mock_ca/general_msg_handler.py lines 271-290, [_process_cert_profile]: every path raises. *)
Definition h_profile (L : lib) (F : conf) (e : item) : result item :=
  let! l := mock_decode (l_profs L) (iv e) in
  match l with
  | [] => Err EBadRequest
  | p :: r =>
      let! _ := guard (match r with [] => true | _ => false end) EBadRequest in
      let! _ := guard (str_mem p (f_profiles F)) EBadRequest in
      Err EBadRequest
  end.

(** mock_ca/general_msg_handler.py lines 292-310, [_process_implicit_confirm]. *)
Definition h_implicit (L : lib) (F : conf) (e : item) : result item :=
  let! _ := guard (negb (is_set e)) EBadRequest in
  let! _ := guard (String.eqb (it e) id_implicitConfirm) EBadRequest in
  let! _ := mock_decode (l_null L) (iv e) in
  let! _ := guard (f_implicit F) EBadRequest in
  Ok {| it := id_implicitConfirm; iv := Some (enc (l_null L) tt) |}.

(** mock_ca/general_msg_handler.py lines 320-329 and resources/general_msg_utils.py lines 1174-1181: the identifiers
    that are not known, in order. *)
Definition h_unsupported (L : lib) (e : item) : result item :=
  let! l := mock_decode (l_oids L) (iv e) in
  Ok {| it := id_unsupportedOIDs;
        iv := Some (enc (l_oids L) (filter (fun o => match l_known L o with Some _ => false | None => true end) l)) |}.

(** mock_ca/general_msg_handler.py lines 331-344, [_process_key_pair_param_req]. *)
Definition h_param_req (L : lib) (e : item) : result item :=
  let! _ := guard (is_set e) EBadRequest in
  let! _ := mock_decode (l_oid L) (iv e) in
  Ok {| it := id_keyPairParamReq; iv := None |}.

(** mock_ca/general_msg_handler.py lines 346-382, [process_rev_passphrase]. *)
Definition h_passphrase (L : lib) (m : msg) (s : st) (e : item) : st * result item :=
  let r :=
    let! _ := guard (is_set e) EBadRequest in
    let! k := mock_decode (l_enckey L) (iv e) in
    match k with
    | EncValue => let! _ := guard (negb (pvno m =? 3)) EBadRequest in Err ENotImplemented
    | EnvData d => let! _ := guard (pvno m =? 3) EBadRequest in l_open L m d
    end in
  match r with
  | Ok p => ({| phrases := phrases s ++ [p]; secrets := secrets s; pending := pending s |},
             Ok {| it := id_revPassphrase; iv := None |})
  | Err x => (s, Err x)
  end.

(** mock_ca/general_msg_handler.py lines 384-415, [process_supp_lang_tags]. *)
Definition h_tags (L : lib) (e : item) : result item :=
  let! _ := guard (is_set e) EBadRequest in
  let! l := mock_decode (l_tags L) (iv e) in
  let! _ := guard (negb (length l =? 0)%nat) EBadRequest in
  let! _ := guard (forallb (fun t => str_mem t ["en"; "de"; "fr"]) l) EBadRequest in
  Ok {| it := id_suppLangTags; iv := Some (enc (l_tags L) ["en"]) |}.

(** mock_ca/general_msg_handler.py lines 417-427, [_process_ca_certs]. *)
Definition h_ca_certs (L : lib) (F : conf) : item :=
  {| it := id_caCerts; iv := Some (enc (l_certs L) (f_chain F)) |}.

(** mock_ca/general_msg_handler.py lines 429-449, [_process_root_ca_cert]. *)
Definition h_root (L : lib) (F : conf) (E : env) (e : item) : result item :=
  let fresh :=
    let! u := e_update E in Ok {| it := id_rootCaKeyUpdate; iv := Some (enc (l_update L) u) |} in
  match iv e with
  | None => fresh
  | Some _ =>
      let! c := mock_decode (l_cert L) (iv e) in
      if bytes_eqb c (f_root F) then fresh else Ok {| it := id_rootCaKeyUpdate; iv := None |}
  end.

(** mock_ca/general_msg_handler.py lines 451-491, [_process_cert_req_template]. *)
Definition h_template (L : lib) (F : conf) : item :=
  {| it := id_certReqTemplate;
     iv := Some (enc (l_tmpl L)
       {| t_key := false; t_serial := false; t_sig := false; t_iuid := false; t_suid := false;
          t_spec := Some [(id_rsaKeyLen, enc (l_len L) (f_rsa F))] |}) |}.

(** mock_ca/general_msg_handler.py lines 493-505, [process_current_crl]. *)
Definition h_crl (E : env) (e : item) : result item :=
  let! _ := guard (negb (is_set e)) EBadRequest in
  let! c := e_crl E 0%nat in
  Ok {| it := id_currentCRL; iv := Some c |}.

(** mock_ca/general_msg_handler.py lines 560-619, [_process_crl_status]: [None] when the source is another issuer or
    when the client's CRL is not older than 90000 seconds.  The text about a foreign issuer is built by
    get_openssl_name_notation (line 579), which may raise. *)
Definition crl_status (L : lib) (F : conf) (E : env) (x : status) (i : nat) : result (option crl) :=
  let! ours :=
    match s_src x with
    | Issuer n =>
        let! r := l_find L n None in
        if r then Ok true else let! _ := l_text L n in Ok false
    | FullName n => l_find L n (Some (f_url F))
    | Relative n => Ok (l_rel L n)
    end in
  if negb ours then Ok None else
  match s_time x with
  | None => let! c := e_crl E i in Ok (Some c)
  | Some t =>
      if 90000 * 1000000 <? e_now E - t then let! c := e_crl E i in Ok (Some c) else Ok None
  end.

Fixpoint crl_statuses (L : lib) (F : conf) (E : env) (l : list status) (i : nat) : result (list crl) :=
  match l with
  | [] => Ok []
  | x :: r =>
      let! o := crl_status L F E x i in
      let! cs := crl_statuses L F E r (Datatypes.S i) in
      Ok (match o with Some [] | None => cs | Some c => c :: cs end)
  end.

(** [set(out_crls)]; Python's order is arbitrary, the model keeps the order of the last occurrences. *)
Fixpoint dedup (l : list crl) : list crl :=
  match l with
  | [] => []
  | x :: r => if mem x r then dedup r else x :: dedup r
  end.

(** mock_ca/general_msg_handler.py lines 507-544, [process_crl_update_retrieval]. *)
Definition h_crls (L : lib) (F : conf) (E : env) (e : item) : result item :=
  let! _ := guard (is_set e) EBadRequest in
  let! l := mock_decode (l_stats L) (iv e) in
  let! _ := guard (negb (length l =? 0)%nat) EBadRequest in
  let! cs := crl_statuses L F E l 0 in
  match cs with
  | [] => Ok {| it := id_crls; iv := None |}
  | _ =>
      let! ds := mapM (fun b => mock_decode (l_crl L) (Some b)) (dedup cs) in
      Ok {| it := id_crls; iv := Some (enc (l_crls L) ds) |}
  end.

(** resources/prepare_alg_ids.py lines 109-119, [get_all_supported_ecc_alg_ids]. *)
Definition ecc_algs (L : lib) : list alg :=
  map (fun o => {| a_oid := id_ec; a_par := Some (enc (l_curve L) o) |}) (l_curves L).
Definition plain (o : oid) : alg := {| a_oid := o; a_par := None |}.

(** mock_ca/general_msg_handler.py lines 621-636, [process_preferred_sym_alg]: AES-256-CBC with a fixed IV (the
    encoding of an OCTET STRING of sixteen letters A). *)
Definition h_sym (L : lib) (e : item) : result item :=
  let! _ := guard (negb (is_set e)) EBadRequest in
  Ok {| it := id_preferredSymmAlg;
        iv := Some (enc (l_alg L) {| a_oid := id_aes256; a_par := Some (4 :: 16 :: repeat 65 16) |}) |}.

(** mock_ca/general_msg_handler.py lines 638-653, [process_enc_key_pair_types]. *)
Definition h_enc_types (L : lib) (e : item) : result item :=
  let! _ := guard (negb (is_set e)) EBadRequest in
  Ok {| it := id_encKeyPairTypes; iv := Some (enc (l_algs L) (ecc_algs L ++ [plain id_X25519; plain id_X448])) |}.

(** mock_ca/general_msg_handler.py lines 655-675, [_process_ca_prot_enc_cert]. *)
Definition h_prot (L : lib) (F : conf) (s : st) (e : item) : st * result item :=
  if is_set e then (s, Err EBadRequest) else
  match f_prot F with
  | None => (s, Err EValueError)
  | Some c => ({| phrases := phrases s; secrets := secrets s; pending := true |},
               Ok {| it := id_caProtEncCert; iv := Some (enc (l_cert L) c) |})
  end.

(** mock_ca/general_msg_handler.py lines 677-710, [_process_sign_key_pair_types]. *)
Definition h_sign_types (L : lib) : item :=
  {| it := id_signKeyPairTypes;
     iv := Some (enc (l_algs L) (map plain (l_pq_oids L) ++ [plain id_rsa; plain id_Ed25519; plain id_Ed448] ++ ecc_algs L)) |}.

(** mock_ca/general_msg_handler.py lines 712-740, [_process_kem_ciphertext_info] and [add_shared_secert]; pyasn1 makes
    an empty certificate for index 0 of absent extraCerts, which is refused. *)
Definition h_kem (L : lib) (m : msg) (s : st) (e : item) : st * result item :=
  let r :=
    let! _ := guard (negb (is_set e)) EBadRequest in
    match extra m with
    | [] => Err EBadRequest
    | c :: _ =>
        let! k := l_key L c in
        let! _ := guard (l_kem_pub L k) EValueError in
        let! p := kem_entry L k in
        match txid m with None => Err EPyAsn1 | Some t => Ok (t, p) end
    end in
  match r with
  | Ok (t, (ss, i)) =>
      ({| phrases := phrases s;
          secrets := (t, ss) :: filter (fun q => negb (bytes_eqb (fst q) t)) (secrets s);
          pending := pending s |}, Ok i)
  | Err x => (s, Err x)
  end.

(** mock_ca/general_msg_handler.py lines 210-269, [_process_general_message_entry]. *)
Definition h_entry (L : lib) (F : conf) (E : env) (m : msg) (s : st) (e : item) : st * result item :=
  let o := it e in
  if String.eqb o id_KemCiphertextInfo then h_kem L m s e
  else if String.eqb o id_caProtEncCert then h_prot L F s e
  else if String.eqb o id_signKeyPairTypes then (s, Ok (h_sign_types L))
  else if String.eqb o id_encKeyPairTypes then (s, h_enc_types L e)
  else if String.eqb o id_preferredSymmAlg then (s, h_sym L e)
  else if String.eqb o id_currentCRL then (s, h_crl E e)
  else if String.eqb o id_unsupportedOIDs then (s, h_unsupported L e)
  else if String.eqb o id_keyPairParamReq then (s, h_param_req L e)
  else if String.eqb o id_revPassphrase then h_passphrase L m s e
  else if String.eqb o id_suppLangTags then (s, h_tags L e)
  else if String.eqb o id_rootCaKeyUpdate then (s, Err EBadRequest)
  else if String.eqb o id_rootCaCert then (s, h_root L F E e)
  else if String.eqb o id_certReqTemplate then (s, Ok (h_template L F))
  else if String.eqb o id_crlStatusList then (s, h_crls L F E e)
  else if String.eqb o id_caCerts then (s, Ok (h_ca_certs L F))
  else if String.eqb o id_implicitConfirm then (s, h_implicit L F e)
  else if String.eqb o id_certProfile then (s, h_profile L F e)
  else (s, Err ENotImplemented).

(** mock_ca/general_msg_handler.py lines 202-207, the loop. *)
Fixpoint h_loop (L : lib) (F : conf) (E : env) (m : msg) (s : st) (l : list item) : st * result (list item) :=
  match l with
  | [] => (s, Ok [])
  | e :: r =>
      match check_absent e with
      | Err x => (s, Err x)
      | Ok _ =>
          match h_entry L F E m s e with
          | (s', Err x) => (s', Err x)
          | (s', Ok i) =>
              match h_loop L F E m s' r with
              | (s'', Ok is) => (s'', Ok (i :: is))
              | (s'', Err x) => (s'', Err x)
              end
          end
      end
  end.

(** mock_ca/general_msg_handler.py lines 195-208, [process_general_msg]: the state and the entries of the answer;
    building the answer's header (lines 178-193) is not modelled. *)
Definition process_genm (L : lib) (F : conf) (E : env) (s : st) (m : msg) : st * result (list item) :=
  match check_genm F m with
  | Err x => (s, Err x)
  | Ok _ => h_loop L F E m s (entries m)
  end.

(** mock_ca/general_msg_handler.py lines 163-176, [patch_genp_message_for_extra_certs]: the extraCerts of the answer. *)
Definition patch_extra (F : conf) (s : st) (x : list cert) : st * list cert :=
  if pending s then
    ({| phrases := phrases s; secrets := secrets s; pending := false |},
     match f_env F with Some cs => x ++ cs | None => x end)
  else (s, x).

(** mock_ca/general_msg_handler.py lines 742-750, [remove_shared_secert]. *)
Definition remove_secret (s : st) (m : msg) : result (st * bool) :=
  match txid m with
  | None => Err EPyAsn1
  | Some t =>
      if existsb (fun q => bytes_eqb (fst q) t) (secrets s)
      then Ok ({| phrases := phrases s; secrets := filter (fun q => negb (bytes_eqb (fst q) t)) (secrets s);
                  pending := pending s |}, true)
      else Ok (s, false)
  end.
