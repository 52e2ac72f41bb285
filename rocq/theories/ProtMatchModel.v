(** Model of the checks that the protection of several messages is consistent, and of the helpers that read or change
    the protection (resources/protectionutils.py). *)
From Coq Require Import String Ascii.
From Verif Require Import Prelude PyStr CompLoadModel HdrModel ProtTab ProtModel.
Open Scope string_scope.
Open Scope Z_scope.
Local Notation length := List.length.

(** ** Comparing parameters *)

(** Models resources/protectionutils.py 133-156 (_compare_alg_id): the encoding of an AlgorithmIdentifier is
    [l_enc L (PAlg a)]. *)
Definition compare_alg_id (L : lib) (a1 a2 : algid) (allow_null : bool) : bool :=
  if allow_null then bytes_eqb (l_enc L (PAlg a1)) (l_enc L (PAlg a2))
  else String.eqb (a_oid a1) (a_oid a2) && is_absent (a_params a2).
(** The test of resources/protectionutils.py 179-182 and 219-222 on two salts. *)
Definition salts_fit (s1 s2 : bytes) (same_salt : bool) : bool :=
  let mismatch := negb (bytes_eqb s1 s2) in
  negb ((mismatch && same_salt) || (negb mismatch && negb same_salt)).
(** Models resources/protectionutils.py 159-192 (_compare_pbm_parameters): the remainder of the decoder is ignored. The
    first argument is indexed as it is: undecoded bytes have no component names (TypeError), another structure lacks
    the component (KeyError), the salt of PBKDF2-params is a CHOICE. *)
Definition compare_pbm_parameters (L : lib) (p1 : params) (b2 : bytes) (same_salt allow_null : bool) : result bool :=
  match l_dec_pbm L b2 with
  | None => Ok false
  | Some ((s2, o2, i2, m2), _) =>
      match p1 with
      | PPbm s1 o1 i1 m1 =>
          Ok (salts_fit s1 s2 same_salt && (i1 =? i2) && compare_alg_id L o1 o2 allow_null && compare_alg_id L m1 m2 allow_null)
      | PRaw _ | POctets _ | PNull => Err ETypeError
      | PAbsent => Err EPyAsn1
      | PPbkdf2 _ _ _ _ => Err EAttribute
      | _ => Err EKeyError
      end
  end.
(** Models resources/protectionutils.py 195-234 (_compare_pbkdf2_parameters): [int] of an unset keyLength is a
    PyAsn1Error. *)
Definition compare_pbkdf2_parameters (L : lib) (p1 p2 : psalt * Z * option Z * algid) (allow_null same_salt : bool)
  : result bool :=
  match p1, p2 with
  | (s1, i1, n1, f1), (s2, i2, n2, f2) =>
      let salts := match s1, s2 with
                   | SaltSpec x, SaltSpec y => salts_fit x y same_salt
                   | SaltOther x, SaltOther y => compare_alg_id L x y allow_null
                   | _, _ => false
                   end in
      if negb (salts && (i1 =? i2)) then Ok false
      else
        let! lens := match n1, n2 with
                     | None, None => Ok true
                     | Some x, Some y => Ok (x =? y)
                     | _, _ => Err EPyAsn1
                     end in
        Ok (lens && compare_alg_id L f1 f2 allow_null)
  end.
(** Decoding a field that may be absent. *)
Definition dec_lax {A} (dec : bytes -> option (A * bytes)) (p : params) : option A :=
  match load (fun _ => None) dec None p with Ok x => Some x | Err _ => None end.
(** Models resources/protectionutils.py 237-286 (_compare_pbmac1_parameters). *)
Definition compare_pbmac1_parameters (L : lib) (b1 b2 : bytes) (allow_null same_salt : bool) : result bool :=
  match l_dec_pbmac1 L b1, l_dec_pbmac1 L b2 with
  | Some ((k1, m1), _), Some ((k2, m2), _) =>
      match dec_lax (l_dec_pbkdf2 L) (a_params k1), dec_lax (l_dec_pbkdf2 L) (a_params k2) with
      | Some q1, Some q2 =>
          let! eq := compare_pbkdf2_parameters L q1 q2 allow_null same_salt in
          let! _ := guard eq EValueError in
          let! _ := guard (compare_alg_id L m1 m2 allow_null) EValueError in
          Ok true
      | _, _ => Ok false
      end
  | _, _ => Ok false
  end.
(** [encoder.encode(alg["parameters"])]. *)
Definition encode_params (L : lib) (p : params) : result bytes :=
  match p with PAbsent => Err EPyAsn1 | PRaw b => Ok b | s => Ok (l_enc L s) end.
(** [alg["parameters"].asOctets()]: NULL is an OCTET STRING for pyasn1, a SEQUENCE has no such method. *)
Definition as_octets (p : params) : result bytes :=
  match p with PAbsent => Err EPyAsn1 | PRaw b | POctets b => Ok b | PNull => Ok [] | _ => Err EAttribute end.
(** Models resources/protectionutils.py 1490-1529 (_compare_mac_params). The names "pbmac1" and "password_based_mac"
    belong to one identifier each. *)
Definition compare_mac_params (L : lib) (a1 a2 : algid) (allow_null same_salt : bool) : result unit :=
  let! der := encode_params L (a_params a1) in
  let! _ := (if negb allow_null && same_salt
             then let! b := as_octets (a_params a2) in guard (bytes_eqb der b) EValueError
             else Ok tt) in
  if String.eqb (a_oid a1) "id_PBMAC1" then
    let! b := as_octets (a_params a2) in
    let! r := compare_pbmac1_parameters L der b allow_null same_salt in guard r EValueError
  else if String.eqb (a_oid a1) "id_PasswordBasedMac" then
    let! b := as_octets (a_params a2) in
    let! r := compare_pbm_parameters L (a_params a1) b same_salt allow_null in guard r EValueError
  else
    let! b := as_octets (a_params a2) in guard (bytes_eqb der b) EValueError.

(** ** Checks on messages *)

(** A protectionAlg that is not set is found out by the first access to it (printing, hashing, comparing). *)
Definition prot_alg (m : msg) : result algid := match h_alg (m_header m) with Some a => Ok a | None => Err EPyAsn1 end.
(** Models resources/protectionutils.py 1533-1566 (_compare_not_strict_mac). *)
Definition compare_not_strict_mac (request response : msg) (lw : bool) (pkiconf : option msg) : result unit :=
  let! st := get_protection_type_from_pkimessage (m_header response) lw true true in
  let! ot := get_protection_type_from_pkimessage (m_header request) lw true true in
  let! _ := guard (String.eqb (ptype_value st) (ptype_value ot)) EValueError in
  match pkiconf with
  | None => Ok tt
  | Some c =>
      let! ct := get_protection_type_from_pkimessage (m_header c) lw true true in
      guard (String.eqb (ptype_value st) (ptype_value ct)) EValueError
  end.
(** Models resources/protectionutils.py 1570-1645 (mac_protection_algorithms_must_match). *)
Definition mac_protection_algorithms_must_match (L : lib) (request response : msg) (pkiconf : option msg)
    (same_salt allow_null strict lw : bool) : result unit :=
  let! a1 := prot_alg request in
  let! a2 := prot_alg response in
  if negb strict then compare_not_strict_mac request response lw pkiconf
  else
    let! t := get_protection_type_from_pkimessage (m_header response) false true true in
    let! _ := guard (String.eqb (ptype_value t) "mac") EValueError in
    let! _ := guard (negb lw || has (a_oid a2) LWCMP_MAC_OID_2_NAME) EValueError in
    let! _ := guard (String.eqb (a_oid a1) (a_oid a2)) EValueError in
    let! _ := compare_mac_params L a1 a2 allow_null same_salt in
    match pkiconf with
    | None => Ok tt
    | Some c =>
        if same_salt then
          let! a3 := prot_alg c in guard (compare_alg_id L a3 a2 false) EValueError
        else compare_mac_params L a1 a2 allow_null same_salt
    end.

(** One of the two identical blocks of resources/protectionutils.py 1672-1684. *)
Definition same_oid (a : algid) (other : option msg) : result unit :=
  match other with
  | None => Ok tt
  | Some m => let! b := prot_alg m in guard (String.eqb (a_oid a) (a_oid b)) EValueError
  end.
Definition has_params (other : option msg) : result bool :=
  match other with
  | None => Ok false
  | Some m => let! b := prot_alg m in Ok (negb (is_absent (a_params b)))
  end.
(** Models resources/protectionutils.py 1649-1696 (check_signature_alg_is_consistent). *)
Definition check_signature_alg_is_consistent (response : msg) (conf polling : option msg) : result unit :=
  let! a := prot_alg response in
  let! _ := same_oid a conf in
  let! _ := same_oid a polling in
  let! c := has_params conf in
  let! p := has_params polling in
  guard (negb (negb (is_absent (a_params a)) || c || p)) EValueError.
(** Models resources/protectionutils.py 1699-1728 (_check_is_same_chain). [chain ee certs] is build_chain_from_list
    (resources/certutils.py 249-289, see CertChainModel.v). *)
Definition chain_der (chain : cert -> list cert -> result (list cert)) (ee : cert) (l : list cert) : result bytes :=
  let! c := chain ee l in Ok (List.concat (List.map c_der c)).
Definition same_chain (chain : cert -> list cert -> result (list cert)) (ee : cert) (first : bytes) (other : option (list cert))
  : result unit :=
  match other with
  | None => Ok tt
  | Some l => let! d := chain_der chain ee l in guard (bytes_eqb first d) EValueError
  end.
Definition check_is_same_chain (chain : cert -> list cert -> result (list cert)) (certs : list cert)
    (conf polling : option (list cert)) : result unit :=
  match certs with
  | [] => Err EIndexError
  | ee :: _ =>
      let! d := chain_der chain ee certs in
      let! _ := same_chain chain ee d conf in
      same_chain chain ee d polling
  end.
(** Models resources/certutils.py 1221-1239 (verify_signature_with_cert) as it is called in
    resources/protectionutils.py 1780-1815. *)
Definition verify_with_cert (L : lib) (c : cert) (m : msg) (h : option string) : result unit :=
  let! data := protected_part L m in
  let! v := match m_prot m with Some v => Ok v | None => Err EPyAsn1 end in
  let! k := c_pub c in
  let! _ := guard (is_sign_kind (k_kind k)) EValueError in
  match verify_signature L k v data h with Err EInvalidSignature => Err EValueError | r => r end.
Definition verify_other (L : lib) (c : cert) (other : option msg) (h : option string) : result (option (list cert)) :=
  match other with
  | None => Ok None
  | Some m => let! _ := verify_with_cert L c m h in Ok (match m_certs m with [] => None | l => Some l end)
  end.
(** Models resources/protectionutils.py 1735-1817 (signature_protection_must_match). A PKIMessage is always true. *)
Definition signature_protection_must_match (L : lib) (chain : cert -> list cert -> result (list cert)) (response : msg)
    (conf polling : option msg) : result unit :=
  match m_certs response with
  | [] => Err EValueError
  | c :: _ =>
      let! _ := guard (match conf, polling with None, None => false | _, _ => true end) EValueError in
      let! _ := check_signature_alg_is_consistent response conf polling in
      let! a := prot_alg response in
      let! hn := get_hash_from_oid (a_oid a) false in
      let! h := match hn with None => Ok None | Some n => let! x := part1 n in Ok (Some x) end in
      let! _ := verify_with_cert L c response h in
      let! cc := verify_other L c conf h in
      let! pc := verify_other L c polling h in
      check_is_same_chain chain (m_certs response) cc pc
  end.

(** ** Reading and changing the protection *)

(** Models resources/protectionutils.py 1999-2051 (get_cmp_protection_salt). In a structure the nested parameters are
    indexed as they are. *)
Definition get_cmp_protection_salt (L : lib) (a : algid) : result bytes :=
  if String.eqb (a_oid a) "id_PBMAC1" then
    match a_params a with
    | PPbmac1 k _ =>
        match a_params k with
        | PPbkdf2 (SaltSpec s) _ _ _ => Ok s
        | PPbkdf2 (SaltOther _) _ _ _ => Err EPyAsn1
        | PRaw _ | POctets _ | PNull => Err ETypeError
        | PAbsent => Err EPyAsn1
        | _ => Err EKeyError
        end
    | p =>
        let! (k, _) := load (fun _ => None) (l_dec_pbmac1 L) None p in
        let! (s, _, _, _) := load (fun _ => None) (l_dec_pbkdf2 L) None (a_params k) in
        match s with SaltSpec b => Ok b | SaltOther _ => Err EValueError end
    end
  else if String.eqb (a_oid a) "id_PasswordBasedMac" then
    let! (s, _, _, _) := load sel_pbm (l_dec_pbm L) None (a_params a) in Ok s
  else Err ENotImplemented.
(** Models resources/protectionutils.py 1968-1995 (modify_pkimessage_protection). *)
Definition modify_pkimessage_protection (rnd : Z -> bytes) (m : msg) : result msg :=
  let! v := match m_prot m with None => Ok (rnd 32) | Some v => manipulate_first_byte v end in
  Ok (set_prot m v).
(** The keyword arguments with another private key. *)
Definition with_key (o : popts) (k : option key) : popts :=
  {| o_password := o_password o; o_key := k; o_cert := o_cert o; o_exclude := o_exclude o; o_chain_file := o_chain_file o;
     o_certs_dir := o_certs_dir o; o_ss := o_ss o; o_bad := o_bad o; o_salt := o_salt o; o_iter := o_iter o;
     o_len := o_len o; o_hash := o_hash o; o_patch := o_patch o; o_mac := o_mac o; o_chain := o_chain o;
     o_peer := o_peer o; o_rand := o_rand o; o_certificate := o_certificate o |}.
(** Models resources/protectionutils.py 1919-1964 (patch_protection_alg); [fresh] is the generated Ed25519 key. *)
Definition patch_protection_alg (rnd : Z -> bytes) (fresh : key) (m : msg) (protection : string) (o : popts) : result msg :=
  let! pa := protection_get protection in
  let k := match pa, o_key o with PA_SIGNATURE, None => Some fresh | _, x => x end in
  let! a := prepare_prot_alg_id rnd protection (with_key o k) in
  Ok (set_header m (set_alg (m_header m) a)).
