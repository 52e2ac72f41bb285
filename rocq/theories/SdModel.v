(** Model of SignedData with an AsymmetricKeyPackage, validated (second half of resources/ca_kga_logic.py 1104-1548) and
    built (resources/envdatautils.py 368-727), and of the check that a signature algorithm fits a public key
    (resources/checkutils.py 911-1031).

    Simplified: object identifiers are the names of ProtTab.v; indices are not negative, and an index past the end is an
    IndexError (pyasn1 may instead hand out an empty component, on which the next access fails); what follows the version
    of a OneAsymmetricKey is its encoding; certificates that are absent are an empty set; the set of signed attributes
    keeps its order; two identifiers that both lack parameters are equal; the loggers are left out. *)
From Coq Require Import String Ascii.
From Verif Require Import Prelude PyStr ProtTab CertChainModel BitModel.
Open Scope string_scope.
Open Scope Z_scope.
Open Scope list_scope.
Local Notation oid := ProtTab.oid.

(** ** Structures *)

(** rfc5280.AlgorithmIdentifier with the encoding of its parameters. *)
Record alg := { g_oid : oid; g_par : option bytes }.
Definition opt_eqb (a b : option bytes) : bool :=
  match a, b with Some x, Some y => bytes_eqb x y | None, None => true | _, _ => false end.
Definition alg_eqb (a b : alg) : bool := String.eqb (g_oid a) (g_oid b) && opt_eqb (g_par a) (g_par b).
(** rfc5652: CertificateChoices, SignerIdentifier, Attribute, SignerInfo, EncapsulatedContentInfo, SignedData. *)
Inductive choice := ChCert (c : cert) | ChOther.
Inductive sid := SidSki (s : bytes) | SidIsn (issuer : bytes) (serial : Z).
Record attr := { t_type : oid; t_vals : list bytes }.
Record signer := { s_version : Z; s_sid : sid; s_digest : alg; s_attrs : list attr; s_alg : alg; s_sig : option bytes }.
Record encap := { n_type : oid; n_content : option bytes }.
Record signed := { d_version : Z; d_digests : list alg; d_encap : encap; d_certs : list choice; d_signers : list signer }.
(** rfc5958.OneAsymmetricKey: version, the privateKey field, the rest. *)
Record one_key := { o_version : Z; o_private : bytes; o_rest : bytes }.
(** A private key and its public key. *)
Record key := { k_id : bytes; k_pub : bytes }.

Definition KEY_PACKAGE : oid := "id_ct_KP_aKeyPackage".
Definition COMMON_NAME : oid := "id_at_commonName".
Definition CONTENT_TYPE : oid := "id_contentType".
Definition MESSAGE_DIGEST : oid := "id_messageDigest".
Definition EC_KEY : oid := "id_ecPublicKey".
Definition RSA_KEY : oid := "rsaEncryption".

(** The libraries: DER codecs, hash functions, the fields of a certificate (subject public key algorithm, subject key
    identifier, key usages), and of /repo: pq_logic/combined_factory.py 548-600 (load_private_key_from_one_asym_key) and
    validate_key_export_type, resources/certutils.py 1221-1239 (verify_signature_with_cert: the certificate, the data, the
    signature, the hash algorithm) and verify_cert_chain_openssl, resources/keyutils.py 1389-1405 (the hash algorithm of a
    stateful hash-based key) and prepare_one_asymmetric_key, resources/cryptoutils.py 57-122 (sign_data),
    resources/oid_mapping.py 189-231 (get_alg_oid_from_key_hash), resources/envdatautils.py 2174-2221
    (get_digest_from_key_hash). *)
Record lib := {
  l_pkgenc : list one_key -> bytes; l_pkgdec : bytes -> option (list one_key * bytes);
  l_octenc : bytes -> bytes; l_octdec : bytes -> option (bytes * bytes);
  l_oidenc : oid -> bytes; l_algenc : alg -> bytes; l_encapenc : encap -> bytes;
  l_hash : string -> bytes -> bytes;
  l_spki : cert -> alg; l_ski : cert -> option bytes; l_usages : cert -> kcert;
  l_load : one_key -> result key; l_export : key -> bytes -> string -> result unit;
  l_verify : cert -> bytes -> bytes -> option string -> result unit;
  l_openssl : list cert -> result unit; l_stateful : cert -> result string; l_chain : env;
  l_one : key -> string -> result one_key;
  l_sign : key -> bytes -> string -> result bytes; l_sigoid : key -> string -> result oid; l_defhash : key -> result string
}.

(** ** Algorithms *)

(** resources/oidutils.py 618-631 (SLH_DSA_HASH_MAPPING). *)
Definition SLH_DSA_HASH_MAPPING : table :=
  [("slh-dsa-sha2-128s", "sha256"); ("slh-dsa-sha2-128f", "sha256"); ("slh-dsa-sha2-192s", "sha512");
   ("slh-dsa-sha2-192f", "sha512"); ("slh-dsa-sha2-256s", "sha512"); ("slh-dsa-sha2-256f", "sha512");
   ("slh-dsa-shake-128s", "shake128"); ("slh-dsa-shake-128f", "shake128"); ("slh-dsa-shake-192s", "shake256");
   ("slh-dsa-shake-192f", "shake256"); ("slh-dsa-shake-256s", "shake256"); ("slh-dsa-shake-256f", "shake256")].

(** Models resources/oid_mapping.py 276-308 (get_digest_hash_alg_from_alg_id); the test of line 294 looks the identifier up
    among names and never succeeds, but the pre-hash variants are answered on line 288. *)
Definition digest_hash (o : oid) : result string :=
  if String.eqb o "id_Ed25519" then Ok "sha512"
  else if String.eqb o "id_Ed448" then Ok "shake256"
  else if has o COMPOSITE_SIG_OID_TO_NAME then
    match lookup o COMPOSITE_SIG_PREHASH_OID_2_HASH with Some h => Ok h | None => Err EKeyError end
  else match lookup o PQ_SIG_PRE_HASH_OID_2_NAME with
  | Some n => Ok (last_part n)
  | None =>
      if has o (by_oid (ML_DSA_NAMES ++ ML_DSA_PRE_HASH_NAMES)) then Ok "sha512"
      else match lookup o (by_oid (SLH_DSA_NAMES ++ SLH_DSA_PRE_HASH_NAMES)) with
      | Some n => match lookup n SLH_DSA_HASH_MAPPING with Some h => Ok h | None => Err EKeyError end
      | None =>
          if has o PQ_SIG_OID_2_NAME then Ok "sha512"
          else let! h := get_hash_from_oid o true in match h with Some h => Ok h | None => Err EValueError end
      end
  end.

(** Models resources/keyutils.py 1361-1407 (get_digest_alg_for_cmp), given a certificate. *)
Definition digest_for_cmp (L : lib) (o : oid) (c : cert) : result string :=
  if has o PQ_STATEFUL_OID_2_NAME then l_stateful L c else digest_hash o.

(** Models resources/oid_mapping.py 235-246 (compute_hash). *)
Definition compute_hash (L : lib) (h : string) (data : bytes) : result bytes :=
  let! n := hash_name_to_instance h in Ok (l_hash L n data).

(** Whether a name contains ["rsa"] or ["pss"]. *)
Definition contains (w n : string) : bool := match index 0 w n with Some _ => true | None => false end.

(** Models resources/checkutils.py 911-944 (_validate_composite_sig_conform_to_spki), given a composite algorithm. *)
Definition composite_fits (prot key : oid) : result bool :=
  match lookup prot COMPOSITE_SIG_OID_TO_NAME with
  | None => Err EKeyError
  | Some n =>
      match lookup key COMPOSITE_SIG_OID_TO_NAME with
      | None => Ok false
      | Some k =>
          if contains "rsa" n then
            if contains "pss" k && contains "pss" n then Ok (String.eqb k n)
            else if negb (contains "pss" k) && negb (contains "pss" n) then Ok (String.eqb k n)
            else if contains "pss" k then Ok (String.eqb (n ++ "-pss") k)
            else Ok (String.eqb n (k ++ "-pss"))
          else Ok (String.eqb prot key)
      end
  end.
(** Models resources/checkutils.py 947-977 (_check_pq_sig_conform_to_spki). *)
Definition pq_fits (prot key : oid) : result bool :=
  if negb (has key PQ_SIG_OID_2_NAME) then Ok false
  else match lookup prot PQ_SIG_PRE_HASH_OID_2_NAME, lookup key PQ_SIG_PRE_HASH_OID_2_NAME with
  | None, None | Some _, Some _ => Ok (String.eqb prot key)
  | Some n, None =>
      match lookup key PQ_SIG_OID_2_NAME with
      | Some k => Ok (String.eqb (k ++ "-" ++ last_part n) n)
      | None => Err EKeyError
      end
  | None, Some n =>
      match lookup prot PQ_SIG_OID_2_NAME with
      | Some p => Ok (String.eqb (p ++ "-" ++ last_part n) n)
      | None => Err EKeyError
      end
  end.
(** Models resources/checkutils.py 980-1031 (check_protection_alg_conform_to_spki); the second argument is the algorithm of
    the subject public key. *)
Definition alg_fits (prot key : alg) : result bool :=
  let p := g_oid prot in
  let k := g_oid key in
  if String.eqb k EC_KEY then Ok (has p ECDSA_SHA_OID_2_NAME)
  else if str_mem k ["id_Ed25519"; "id_Ed448"] then Ok (str_mem p ["id_Ed25519"; "id_Ed448"])
  else if String.eqb k RSA_KEY then Ok (has p RSA_OID_2_NAME || has p RSASSA_PSS_OID_2_NAME)
  else if has p RSA_OID_2_NAME then Ok (has k RSA_OID_2_NAME)
  else if String.eqb p "id_RSASSA_PSS" then Ok (alg_eqb key prot)
  else if has p RSASSA_PSS_OID_2_NAME then Ok (String.eqb k p)
  else if has p COMPOSITE_SIG_OID_TO_NAME then composite_fits p k
  else if has p PQ_SIG_OID_2_NAME then pq_fits p k
  else Ok (alg_eqb prot key).

(** ** Validating *)

(** Models resources/ca_kga_logic.py 1377-1393 (_is_signature_alg_id). *)
Definition is_signature_alg (o : oid) : result unit :=
  guard (has o MSG_SIG_ALG || has o COMPOSITE_SIG_OID_TO_NAME || has o PQ_SIG_OID_2_NAME) EBadAlg.
(** Models resources/ca_kga_logic.py 1397-1440 (validate_signature_and_digest_alg). *)
Definition check_algs (L : lib) (sig dig outer : alg) : result unit :=
  let! _ := guard (bytes_eqb (l_algenc L outer) (l_algenc L dig)) EValueError in
  let! _ := is_signature_alg (g_oid sig) in
  let! d := match get_hash_from_oid (g_oid dig) false with Err EValueError => Err EBadAlg | r => r end in
  let! s := digest_hash (g_oid sig) in
  guard (match d with Some d => String.eqb s d | None => false end) EValueError.

(** Models resources/ca_kga_logic.py 1444-1505 (validate_signed_attributes, _check_required_attributes), first value. *)
Fixpoint attrs_loop (L : lib) (n : nat) (l : list attr) (found : bool) (dig : option bytes) : result (bool * option bytes) :=
  match l with
  | [] => Ok (found, dig)
  | a :: l =>
      if String.eqb (t_type a) CONTENT_TYPE then
        attrs_loop L n l (found || existsb (fun v => bytes_eqb v (l_oidenc L KEY_PACKAGE)) (t_vals a)) dig
      else if String.eqb (t_type a) MESSAGE_DIGEST then
        let! _ := guard (Nat.eqb (List.length (t_vals a)) n) EValueError in
        match t_vals a with
        | [] => Err EIndexError
        | v :: _ => match l_octdec L v with
                    | Some (d, _) => attrs_loop L n l found (Some d)
                    | None => Err EPyAsn1
                    end
        end
      else attrs_loop L n l found dig
  end.
Definition check_attrs (L : lib) (n : nat) (l : list attr) : result bytes :=
  let! (found, dig) := attrs_loop L n l false None in
  match dig with
  | None => Err EValueError
  | Some d => let! _ := guard found EValueError in Ok d
  end.

(** Models resources/ca_kga_logic.py 1314-1374 (check_signer_infos): message digest, signature algorithm, signature. The
    caller on lines 1219-1221 gives no index. *)
Definition check_signers (L : lib) (l : list signer) (outer : alg) (c : cert) (n : nat) : result (bytes * alg * bytes) :=
  let! _ := guard (Nat.eqb (List.length l) n) EValueError in
  match l with
  | [] => Err EIndexError
  | i :: _ =>
      let! _ := guard (s_version i =? 3) EValueError in
      let! _ := guard (match s_sid i with SidSki _ => true | _ => false end) EValueError in
      let! d := check_attrs L n (s_attrs i) in
      let! _ := check_algs L (s_alg i) (s_digest i) outer in
      let! f := alg_fits (s_alg i) (l_spki L c) in
      let! _ := guard f EValueError in
      match s_sig i with
      | None => Err EValueError
      | Some s => Ok (d, s_alg i, s)
      end
  end.

(** Models resources/ca_kga_logic.py 1509-1548 (validate_asymmetric_key_package). *)
Definition check_package (L : lib) (p : list one_key) (n i : nat) (save : option string) : result key :=
  let! _ := guard (Nat.eqb (List.length p) n) EValueError in
  match nth_error p i with
  | None => Err EIndexError
  | Some o =>
      let! _ := guard (o_version o =? 1) EInvalidKeyData in
      let! k := l_load L o in
      let! _ := match save with Some t => l_export L k (o_private o) t | None => Ok tt end in
      Ok k
  end.

(** Models resources/ca_kga_logic.py 1104-1141 (get_certificates_from_signed_data). *)
Fixpoint plain_certs (l : list choice) : result (list cert) :=
  match l with
  | [] => Ok []
  | ChCert c :: l => let! r := plain_certs l in Ok (c :: r)
  | ChOther :: _ => Err ENotImplemented
  end.
Definition get_certs (L : lib) (l : list choice) : result (list cert) :=
  let! certs := plain_certs l in
  match certs with
  | [] | [_] => Ok certs
  | first :: rest =>
      let! a := build_chain_from_list (l_chain L) first rest false in
      let! b := build_chain_from_list (l_chain L) (last rest first) (first :: removelast rest) false in
      let out := if (List.length b <? List.length a)%nat then a else b in
      let! _ := guard (Nat.eqb (List.length out) (List.length certs)) EValueError in
      Ok out
  end.

(** Models resources/ca_kga_logic.py 1144-1172 (_validate_signature_and_algorithm_in_signed_data): the digest that differs is
    logged with an attribute that an OctetString does not have (lines 1163-1164). *)
Definition check_signature (L : lib) (digest : bytes) (a : alg) (s content data : bytes) (c : cert) : result unit :=
  let! h := digest_for_cmp L (g_oid a) c in
  let! d := compute_hash L h content in
  let! _ := guard (bytes_eqb digest d) EAttribute in
  l_verify L c data s (Some h).

(** Models resources/ca_kga_logic.py 1249-1259 (_check_is_hybrid_or_pq_sig_alg_cert_chain). *)
Definition hybrid_chain (L : lib) (certs : list cert) : bool :=
  existsb (fun c => has (g_oid (l_spki L c)) COMPOSITE_SIG_OID_TO_NAME || has (g_oid (l_spki L c)) PQ_SIG_OID_2_NAME) certs.
Fixpoint same_certs (a b : list cert) : bool :=
  match a, b with
  | [], [] => true
  | x :: a, y :: b => bytes_eqb (c_der x) (c_der y) && same_certs a b
  | _, _ => false
  end.
(** Models resources/ca_kga_logic.py 1262-1310 (_validate_kga_certificate); [dir] and [os] are the trust anchors of the
    directory and of the system. *)
Definition check_chain (L : lib) (certs : list cert) (data s : bytes) (h : option string) (dir os : list cert) : result unit :=
  match certs with
  | [] => Ok tt
  | first :: rest =>
      let! _ := certificates_are_trustanchors [last certs first] (Some dir) os true in
      if hybrid_chain L certs then
        let! ch := build_chain_from_list (l_chain L) first rest false in
        guard (same_certs ch certs) EValueError
      else
        let! _ := l_openssl L certs in
        let! p := find_right_cert_pos (fun c => l_verify L c data s h) certs in
        match p with
        | Some O => Ok tt
        | _ => Err EValueError
        end
  end.

(** Models resources/ca_kga_logic.py 1176-1246 (validate_signed_data_structure). *)
Definition validate_signed (L : lib) (d : signed) (n i : nat) (dir os : list cert) (save : option string) : result key :=
  let! _ := guard (d_version d =? 3) EValueError in
  let! _ := guard (Nat.eqb (List.length (d_digests d)) n) EValueError in
  match nth_error (d_digests d) i with
  | None => Err EIndexError
  | Some outer =>
      let! _ := guard (String.eqb (n_type (d_encap d)) KEY_PACKAGE) EValueError in
      let! content := match n_content (d_encap d) with Some c => Ok c | None => Err EPyAsn1 end in
      let! pkg := match l_pkgdec L content with
                  | Some (p, []) => Ok p
                  | Some _ => Err EValueError
                  | None => Err EPyAsn1
                  end in
      let! k := check_package L pkg n i save in
      let! certs := get_certs L (d_certs d) in
      match certs with
      | [] => Err EIndexError
      | c :: _ =>
          let! (dig, a, s) := check_signers L (d_signers d) outer c n in
          let data := l_encapenc L (d_encap d) in
          let! _ := check_signature L dig a s content data c in
          let! h := get_hash_from_oid (g_oid a) true in
          let! _ := check_chain L certs data s h dir os in
          let! _ := validate_cmp_extended_key_usage (l_usages L c) "cmKGA" (VInt 2) in
          Ok k
      end
  end.

(** ** Building *)

(** Models resources/envdatautils.py 368-389 (prepare_signer_identifier). *)
Definition signer_id (L : lib) (c : cert) : sid :=
  match l_ski L c with Some s => SidSki s | None => SidIsn (c_issuer c) (c_serial c) end.
(** Models resources/envdatautils.py 393-429 (prepare_signed_attributes). *)
Definition signed_attrs (L : lib) (digest : bytes) : list attr :=
  [{| t_type := CONTENT_TYPE; t_vals := [l_oidenc L KEY_PACKAGE] |};
   {| t_type := MESSAGE_DIGEST; t_vals := [l_octenc L digest] |}].
(** Models resources/envdatautils.py 433-450 (prepare_encapsulated_content_info). *)
Definition encapsulate (content : bytes) (override : bool) : encap :=
  {| n_type := if override then COMMON_NAME else KEY_PACKAGE; n_content := Some content |}.

(** [a or b] of two names: an empty name counts as none. *)
Definition or_name (a : option string) (b : string) : string :=
  match a with Some x => if String.eqb x "" then b else x | None => b end.
(** Models resources/envdatautils.py 454-527 (prepare_signer_info). *)
Definition build_signer (L : lib) (k : key) (c : cert) (content : bytes) (sig_hash dig_hash : option string) (bad : bool)
  (version : Z) : result signer :=
  let! sh := match sig_hash with Some h => Ok h | None => l_defhash L k end in
  let dh := or_name dig_hash sh in
  let! digest := compute_hash L dh content in
  let! so := l_sigoid L k sh in
  let! do := sha_alg_name_to_oid dh in
  let! s := l_sign L k (l_encapenc L (encapsulate content false)) sh in
  Ok {| s_version := version; s_sid := signer_id L c; s_digest := {| g_oid := do; g_par := None |};
        s_attrs := signed_attrs L digest; s_alg := {| g_oid := so; g_par := None |};
        s_sig := Some (if bad then s ++ [65; 65] else s) |}.
(** Models resources/envdatautils.py 531-568 (prepare_signer_infos). *)
Definition build_signers (L : lib) (k : key) (c : cert) (content : bytes) (sig_hash dig_hash : option string)
  (another bad : bool) : result (list signer) :=
  let! sh := match sig_hash with Some h => Ok h | None => l_defhash L k end in
  let! i := build_signer L k c content (Some sh) dig_hash bad 3 in
  Ok (if another then [i; i] else [i]).
(** Models resources/envdatautils.py 592-606 (_prepare_digest_alg_ids). *)
Definition digest_algs (names : string) : result (list alg) :=
  mapM (fun n => let! o := sha_alg_name_to_oid (strip is_space n) in Ok {| g_oid := o; g_par := None |}) (split "," names).
(** Models resources/envdatautils.py 696-727 (prepare_asymmetric_key_package), given private keys. *)
Definition build_package (L : lib) (keys : list key) (save : string) : result (list one_key) := mapM (fun k => l_one L k save) keys.

(** Models resources/envdatautils.py 610-693 (prepare_signed_data): the signer infos given are a list. *)
Definition build_signed (L : lib) (k : key) (c : cert) (sig_hash : option string) (content : option bytes)
  (dig_hash : option string) (bad : bool) (chain : option (list cert)) (keys : option (list key))
  (infos : option (list signer)) : result signed :=
  let! _ := guard (match content, keys with None, None => false | _, _ => true end) EValueError in
  let! sh := match sig_hash with Some h => Ok h | None => l_defhash L k end in
  let dh := or_name dig_hash sh in
  let! e := match keys, content with
            | Some ks, _ => let! p := build_package L ks "raw" in Ok (l_pkgenc L p)
            | None, Some x => Ok x
            | None, None => Err EValueError
            end in
  let! ds := digest_algs dh in
  let certs := match chain with Some l => l | None => [c] end in
  let! is := match infos with
             | Some l => Ok l
             | None => build_signers L k c e (Some sh) (Some dh) false bad
             end in
  Ok {| d_version := 3; d_digests := ds; d_encap := encapsulate e false; d_certs := map ChCert certs; d_signers := is |}.
