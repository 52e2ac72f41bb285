(** Model of related certificates (pq_logic/hybrid_sig/cert_binding_for_multi_auth.py) and of certificate discovery
    (pq_logic/hybrid_sig/certdiscovery.py).

    Simplified: object identifiers are the names of ProtTab.v; a certificate is that of CertChainModel.v, its other fields
    are read by the functions of the library; extensions and attributes that are absent are an empty list; names are
    compared by their encodings; numbers given as text are numbers; an index is not negative, and one past the end is an
    IndexError (pyasn1 may instead hand out an empty component, on which the next access fails); two identifiers that both
    lack parameters are equal; the logging is left out. *)
From Coq Require Import String Ascii.
From Verif Require Import Prelude PyStr ProtTab CertChainModel BitModel.
From Verif Require SdModel.
Open Scope string_scope.
Open Scope Z_scope.
Open Scope list_scope.
Local Notation oid := ProtTab.oid.
Notation alg := SdModel.alg.
Notation attr := SdModel.attr.

(** ** Structures *)

(** rfc5280.Extension. *)
Record ext := { x_id : oid; x_crit : bool; x_val : bytes }.
(** pq_logic/hybrid_structures.py 99-115 (RequesterCertificate): certID (issuer, serial number), requestTime, locationInfo,
    signature. *)
Record req := { q_issuer : bytes; q_serial : Z; q_time : Z; q_uri : string; q_sig : bytes }.
(** pq_logic/hybrid_structures.py 64-84 (RelatedCertificateDescriptor). *)
Record desc := { d_uri : string; d_sig : option alg; d_key : option alg }.
(** rfc5280.AccessDescription: the location is an otherName (type-id and value) or another GeneralName. *)
Inductive loc := LOther (t : oid) (v : bytes) | LElse.
Record access := { a_method : oid; a_loc : loc }.
(** A private and a public key. *)
Record skey := { s_id : bytes }.
Record pub := { u_id : bytes }.

Definition RELATED : oid := "id_relatedCert".
Definition REQUEST : oid := "id_aa_relatedCertRequest".
Definition EXT_REQUEST : oid := "id_extensionRequest".
Definition BASIC : oid := "id_ce_basicConstraints".
Definition SIA : oid := "id_pe_subjectInfoAccess".
Definition DISCOVERY : oid := "id_ad_certDiscovery".
Definition DESCRIPTOR : oid := "id_ad_relatedCertificateDescriptor".

(** What is called: DER of the structures; the fields of a certificate (signature algorithm, algorithm of the key,
    extensions, usages, validity); the hash functions; load_public_key_from_cert, ensure_is_verify_key, sign_data,
    verify_signature, manipulate_bytes_based_on_key, modify_common_name_cert with prepare_name; requests.get; the decoding
    of one certificate and of PEM text; check_is_cert_signer and build_chain_from_list (by CertChainModel.v);
    verify_cert_chain_openssl with its [crl_check]. *)
Record lib := {
  l_octenc : bytes -> bytes; l_octdec : bytes -> option (bytes * bytes);
  l_timeenc : Z -> bytes; l_idenc : bytes -> Z -> bytes;
  l_reqenc : req -> bytes; l_reqdec : bytes -> option (req * bytes);
  l_bcdec : bytes -> option (bool * bytes); l_extsdec : bytes -> option (list ext * bytes);
  l_siaenc : list access -> bytes; l_siadec : bytes -> option (list access * bytes);
  l_descenc : desc -> bytes; l_descdec : bytes -> option (desc * bytes);
  l_sigalg : cert -> alg; l_keyalg : cert -> alg; l_exts : cert -> list ext; l_usages : cert -> kcert;
  l_from : cert -> Z; l_to : cert -> Z;
  l_hash : string -> bytes -> bytes;
  l_load : cert -> result pub; l_verifies : pub -> bool;
  l_sign : skey -> bytes -> string -> result bytes;
  l_verify : pub -> bytes -> bytes -> string -> result unit;
  l_spoil : bytes -> skey -> result bytes; l_other_issuer : cert -> result bytes;
  l_get : string -> result bytes; l_certdec : bytes -> option (cert * bytes); l_pems : bytes -> result (list cert);
  l_chain : env; l_openssl : list cert -> bool -> result unit
}.

(** Models resources/certextractutils.py 118-143 (get_extension), without the demands of criticality. *)
Fixpoint get_extension (l : list ext) (o : oid) : option ext :=
  match l with
  | [] => None
  | e :: r => if String.eqb (x_id e) o then Some e else get_extension r o
  end.
Fixpoint get_attribute (l : list attr) (o : oid) : option attr :=
  match l with
  | [] => None
  | e :: r => if String.eqb (SdModel.t_type e) o then Some e else get_attribute r o
  end.

(** ** The extension *)

(** Models cert_binding_for_multi_auth.py 386-407 (_get_hash_alg). *)
Definition hash_for (L : lib) (h : option string) (c : cert) : result string :=
  match h with
  | Some x => Ok x
  | None =>
      let! o := get_hash_from_oid (SdModel.g_oid (l_sigalg L c)) true in
      match o with Some x => Ok x | None => SdModel.digest_hash (SdModel.g_oid (l_sigalg L c)) end
  end.
(** Models resources/cmputils.py 2974-3022 (calculate_cert_hash), given a hash algorithm. *)
Definition cert_hash (L : lib) (h : string) (c : cert) : result bytes :=
  let! n := hash_name_to_instance h in Ok (l_hash L n (c_der c)).
(** Models cert_binding_for_multi_auth.py 174-193 (_get_related_cert_sig). *)
Definition related_hash (L : lib) (c : cert) : result (option bytes) :=
  match get_extension (l_exts L c) RELATED with
  | None => Ok None
  | Some e =>
      match l_octdec L (x_val e) with
      | None => Err EPyAsn1
      | Some (b, rest) => let! _ := guard (match rest with [] => true | _ => false end) EBadAsn1Data in Ok (Some b)
      end
  end.
(** Models cert_binding_for_multi_auth.py 196-241 (validate_related_cert_extension). *)
Definition validate_extension (L : lib) (a related : cert) (h : option string) : result unit :=
  let! s := related_hash L a in
  let s := match s with Some s => s | None => [] end in
  let! _ := guard (negb (bytes_eqb s [])) EValueError in
  let! n := hash_for L h a in
  let! x := cert_hash L n related in
  let! _ := guard (bytes_eqb x s) EValueError in
  validate_ku_and_eku_related_cert (l_usages L a) (l_usages L related).
(** Models cert_binding_for_multi_auth.py 244-276 (get_related_cert_from_list). *)
Fixpoint find_hash (L : lib) (h : string) (s : bytes) (certs : list cert) : result cert :=
  match certs with
  | [] => Err EValueError
  | c :: r => let! x := cert_hash L h c in if bytes_eqb x s then Ok c else find_hash L h s r
  end.
Definition find_related (L : lib) (certs : list cert) (a : cert) : result cert :=
  let! h := hash_for L None a in
  let! s := related_hash L a in
  match s with None => Err EValueError | Some s => find_hash L h s certs end.
(** Models cert_binding_for_multi_auth.py 661-707 (prepare_related_cert_extension). *)
Definition prepare_extension (L : lib) (c : cert) (h : option string) (crit : bool) : result ext :=
  let! n := hash_for L h c in
  let! x := cert_hash L n c in
  Ok {| x_id := RELATED; x_crit := crit; x_val := l_octenc L x |}.

(** ** The request *)

(** Models cert_binding_for_multi_auth.py 49-59 (_prepare_related_data_to_sign). *)
Definition data_to_sign (L : lib) (issuer : bytes) (serial time : Z) : bytes := l_timeenc L time ++ l_idenc L issuer serial.
(** Models cert_binding_for_multi_auth.py 62-141 (prepare_requester_certificate) and
    resources/certbuildutils.py 2860-2918 (prepare_issuer_and_serial_number) for a certificate: [request_time or ...] takes
    the current time for the number 0; a BinaryTime is not negative. *)
Definition prepare_requester (L : lib) (now : Z) (c : cert) (k : skey) (uri : string) (bad : bool) (h : option string)
  (bad_serial bad_issuer : bool) (freshness : Z) (time : option Z) : result req :=
  let t := match time with Some t => if t =? 0 then now + freshness else t | None => now + freshness end in
  let! _ := guard (0 <=? t) EPyAsn1 in
  let! i := if bad_issuer then l_other_issuer L c else Ok (c_issuer c) in
  let n := if bad_serial then c_serial c + 1 else c_serial c in
  let! hn := hash_for L h c in
  let! s := l_sign L k (data_to_sign L i n t) hn in
  let! s := if bad then l_spoil L s k else Ok s in
  Ok {| q_issuer := i; q_serial := n; q_time := t; q_uri := uri; q_sig := s |}.
(** Models cert_binding_for_multi_auth.py 144-171 (add_csr_related_cert_request_attribute). *)
Definition add_request (L : lib) (attrs : list attr) (q : req) : list attr :=
  attrs ++ [{| SdModel.t_type := REQUEST; SdModel.t_vals := [l_reqenc L q] |}].
(** Models cert_binding_for_multi_auth.py 343-364 (extract_related_cert_request_attribute): what follows the structure is
    ignored. *)
Definition extract_request (L : lib) (attrs : list attr) : result req :=
  match get_attribute attrs REQUEST with
  | None => Err EValueError
  | Some a =>
      match SdModel.t_vals a with
      | [v] => match l_reqdec L v with Some (q, _) => Ok q | None => Err EPyAsn1 end
      | _ => Err EValueError
      end
  end.
(** Models resources/utils.py 945-960 (fetch_value_from_location) and 963-1004 (load_certificate_from_uri). *)
Definition load_uri (L : lib) (uri : string) (load_chain : bool) : result (list cert) :=
  let! content := if String.eqb uri "" then Ok None else let! b := l_get L uri in Ok (Some b) in
  if load_chain then
    match content with
    | None | Some [] => Err EValueError
    | Some b => l_pems L b
    end
  else
    match (match content with Some b => l_certdec L b | None => None end) with
    | None => Err EPyAsn1
    | Some (c, rest) => let! _ := guard (match rest with [] => true | _ => false end) EValueError in Ok [c]
    end.
(** Models cert_binding_for_multi_auth.py 410-445 (_verify_related_cert_pop). *)
Definition verify_pop (L : lib) (c : cert) (q : req) (h : option string) : result unit :=
  let! k := l_load L c in
  let! n := hash_for L h c in
  let! _ := guard (l_verifies L k) EBadCertTemplate in
  match l_verify L k (data_to_sign L (q_issuer q) (q_serial q) (q_time q)) (q_sig q) n with
  | Err EInvalidSignature | Err EInvalidAltSignature => Err EBadPOP
  | r => r
  end.
(** Models resources/ca_kga_logic.py 1860-1882 (validate_issuer_and_serial_number_field). *)
Definition check_id (q : req) (c : cert) : result unit :=
  let! _ := guard (bytes_eqb (q_issuer q) (c_issuer c)) EValueError in
  guard (q_serial q =? c_serial c) EValueError.
(** Models cert_binding_for_multi_auth.py 448-500 (validate_related_cert_pop). *)
Definition validate_pop (L : lib) (now : Z) (attrs : list attr) (max : Z) (load_chain : bool) (h : option string)
  : result (list cert) :=
  let! q := extract_request L attrs in
  let! _ := guard (negb (now <? q_time q)) EBadTime in
  let! _ := guard (negb (max <? now - q_time q)) EBadTime in
  let! chain := load_uri L (q_uri q) load_chain in
  match chain with
  | [] => Err EIndexError
  | c :: _ =>
      let! _ := check_id q c in
      let! _ := verify_pop L c q h in
      Ok chain
  end.
(** Models cert_binding_for_multi_auth.py 503-516 (_validate_is_ca_cert). *)
Definition is_ca (L : lib) (l : list ext) : result bool :=
  match get_extension l BASIC with
  | None => Ok false
  | Some e => match l_bcdec L (x_val e) with Some (b, []) => Ok b | _ => Err EBadAsn1Data end
  end.
(** Models resources/certextractutils.py 282-299 (extract_extensions_from_csr). *)
Definition csr_extensions (L : lib) (attrs : list attr) : result (option (list ext)) :=
  match get_attribute attrs EXT_REQUEST with
  | None => Ok None
  | Some a =>
      match SdModel.t_vals a with
      | [] => Err EPyAsn1
      | v :: _ => match l_extsdec L v with Some (l, _) => Ok (Some l) | None => Err EPyAsn1 end
      end
  end.
(** Models cert_binding_for_multi_auth.py 519-588 (validate_multi_auth_binding_csr) and resources/certutils.py 470-510
    (build_cert_chain_from_dir): [dir] is the content of the directory of trust anchors, [roots] that of the default one,
    ./data/trustanchors, [os] that of the system store. *)
Definition validate_csr (L : lib) (now : Z) (attrs : list attr) (load_chain : bool) (max : Z) (dir roots os : list cert)
  (allow_os crl openssl : bool) (given : option (list cert)) : result cert :=
  let! l := csr_extensions L attrs in
  let! b := match l with Some l => is_ca L l | None => Ok false end in
  let! _ := guard (negb b) EBadCertTemplate in
  let! loaded := validate_pop L now attrs max load_chain None in
  match loaded with
  | [] => Err EIndexError
  | a :: rest =>
      let! b := is_ca L (l_exts L a) in
      let! _ := guard (negb b) EBadCertTemplate in
      let! built := if negb load_chain && match rest with [] => true | _ => false end
                    then build_chain_from_list (l_chain L) a (dir ++ roots) false else Ok loaded in
      match (match given with Some g => g | None => built end) with
      | [] => Err EIndexError
      | x :: r =>
          let! _ := certificates_are_trustanchors [last (x :: r) x] (Some dir) os allow_os in
          let! _ := if openssl then l_openssl L (x :: r) crl else Ok tt in
          Ok a
      end
  end.
(** What pq_logic/hybrid_issuing.py 1201-1267 (build_related_cert_from_csr) adds to the certificate: the related certificate
    is the one given or the one of the request. *)
Definition issue_extension (L : lib) (now : Z) (attrs : list attr) (load_chain : bool) (max : Z) (dir roots os : list cert)
  (allow_os crl : bool) (related : option cert) (crit : bool) : result ext :=
  let! r := match related with
            | Some r => Ok r
            | None => validate_csr L now attrs load_chain max dir roots os allow_os crl true None
            end in
  prepare_extension L r None crit.

(** ** The server's check *)

(** What may be handed in as the certificate to be issued: a certificate, or the to-be-signed part or a template, which have
    a field for the extensions and none for a to-be-signed part. *)
Inductive issued := ICert (c : cert) | ITemplate (l : list ext).
(** Models cert_binding_for_multi_auth.py 594-632 (server_side_validate_cert_binding_for_multi_auth): a field that does not
    exist is a KeyError; get_field_from_certificate does not take a template. *)
Definition server_check (L : lib) (now : Z) (b : issued) (related : cert) : result unit :=
  let! l := match b with ITemplate l => Ok l | ICert _ => Err EKeyError end in
  let! _ := match get_extension l BASIC with None => Ok tt | Some _ => Err EKeyError end in
  let! c := match b with ICert c => Ok c | ITemplate _ => Err ETypeError end in
  let! _ := validate_ku_and_eku_related_cert (l_usages L c) (l_usages L related) in
  let! _ := guard ((l_to L related <=? now) && (now <=? l_from L related)) EValueError in
  guard ((l_from L c <=? now) && (now <=? l_to L c)) EValueError.

(** ** Discovery *)

(** Models certdiscovery.py 24-67 (_prepare_related_certificate_descriptor). *)
Definition prepare_descriptor (L : lib) (url : string) (other : option cert) (sig key : option alg) : desc :=
  let or_of (x : option alg) (f : cert -> alg) := match x, other with Some a, _ => Some a | None, Some c => Some (f c) | None, None => None end in
  {| d_uri := url; d_sig := or_of sig (l_sigalg L); d_key := or_of key (l_keyalg L) |}.
(** Models certdiscovery.py 70-117 (prepare_subject_info_access_syntax_extension). *)
Definition prepare_sia (L : lib) (url : string) (crit : bool) (sig key : option alg) (other : option cert) : ext :=
  {| x_id := SIA; x_crit := crit;
     x_val := l_siaenc L [{| a_method := DISCOVERY; a_loc := LOther DESCRIPTOR (l_descenc L (prepare_descriptor L url other sig key)) |}] |}.
Fixpoint first_access (l : list access) : option access :=
  match l with
  | [] => None
  | a :: r => if String.eqb (a_method a) DISCOVERY then Some a else first_access r
  end.
(** What is handed in as the extension: an extension, or the list of them, which cannot be asked for a field. *)
Inductive ext_arg := AExt (e : ext) | AList (l : list ext).
(** Models certdiscovery.py 120-168 (extract_related_cert_des_from_sis_extension): what follows a structure is ignored. *)
Definition extract_descriptor (L : lib) (x : ext_arg) (index : option nat) : result desc :=
  match x with
  | AList _ => Err ETypeError
  | AExt e =>
      match l_siadec L (x_val e) with
      | None => Err EPyAsn1
      | Some (sia, _) =>
          let! a := match index with
                    | Some i => match nth_error sia i with
                                | None => Err EIndexError
                                | Some a => let! _ := guard (String.eqb (a_method a) DISCOVERY) EValueError in Ok a
                                end
                    | None => match first_access sia with Some a => Ok a | None => Err EValueError end
                    end in
          match a_loc a with
          | LElse => Err EPyAsn1
          | LOther t v =>
              let! _ := guard (String.eqb t DESCRIPTOR) EValueError in
              match l_descdec L v with Some (d, _) => Ok d | None => Err EPyAsn1 end
          end
      end
  end.
(** Models certdiscovery.py 171-189 (is_cert_discovery_cert). *)
Definition is_discovery (L : lib) (c : cert) : result bool :=
  match get_extension (l_exts L c) SIA with
  | None => Ok false
  | Some e => match l_siadec L (x_val e) with
              | None => Err EPyAsn1
              | Some (sia, _) => Ok (existsb (fun a => String.eqb (a_method a) DISCOVERY) sia)
              end
  end.
(** Models certdiscovery.py 192-209 (get_cert_discovery_cert). *)
Definition discover (L : lib) (c : cert) : result (option cert) :=
  match get_extension (l_exts L c) SIA with
  | None => Ok None
  | Some e =>
      let! d := extract_descriptor L (AExt e) None in
      let! l := load_uri L (d_uri d) false in
      match l with c :: _ => Ok (Some c) | [] => Err EIndexError end
  end.
(** Models certdiscovery.py 212-238 (validate_related_certificate_descriptor_alg_ids) and resources/compareutils.py 414-443
    (compare_alg_id_without_tag). *)
Definition check_algs (L : lib) (c : cert) (d : desc) : result unit :=
  let! _ := match d_sig d with None => Ok tt | Some a => guard (SdModel.alg_eqb a (l_sigalg L c)) EValueError end in
  match d_key d with None => Ok tt | Some a => guard (SdModel.alg_eqb a (l_keyalg L c)) EValueError end.
(** Models certdiscovery.py 241-323 (validate_cert_discovery_cert); the list of extensions is handed to
    extract_related_cert_des_from_sis_extension. [dir]: the certificates of [certs_dir]. *)
Definition validate_discovery (L : lib) (primary : cert) (issuer : option cert) (secondary : option (list cert))
  (openssl crl : bool) (dir : option (list cert)) : result cert :=
  let! d := extract_descriptor L (AList (l_exts L primary)) None in
  let! l := load_uri L (d_uri d) false in
  match l with
  | [] => Err EIndexError
  | other :: _ =>
      let! _ := check_algs L other d in
      let! i := match issuer, secondary with
                | Some i, _ => Ok i
                | None, Some (_ :: i :: _) => Ok i
                | None, Some _ => Err EIndexError
                | None, None => Err EValueError
                end in
      let! s := check_is_cert_signer (l_chain L) other i in
      let! _ := guard s EValueError in
      let! pool := match secondary, dir with Some l, _ => Ok l | None, Some l => Ok l | None, None => Err EValueError end in
      let! chain := build_chain_from_list (l_chain L) other pool false in
      let! _ := if openssl then l_openssl L chain crl else Ok tt in
      Ok other
  end.
