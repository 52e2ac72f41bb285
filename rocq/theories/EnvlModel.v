(** Model of EnvelopedData, built and opened: resources/envdatautils.py and the first half of
    resources/ca_kga_logic.py.

    Simplified: names are the DER encodings of their rdnSequence; a subject public key info is its DER encoding; the
    values drawn at random (content encryption key, IV, salt, keying material, coins of RSA and of encapsulation) are
    arguments; passwords and keys are already bytes (str_to_bytes); indices are not negative; the ASN.1 tags given to
    the built structures and the loggers are left out; the parameters of an algorithm identifier are their DER
    encoding, also before anything has been transmitted. *)
From Coq Require Import String.
From Verif Require Import Prelude HdrModel.
Open Scope string_scope.
Open Scope Z_scope.
Open Scope list_scope.

(** ** Object identifiers *)

Definition oid := string.
Definition oid_in (o : oid) (l : list oid) : bool := existsb (String.eqb o) l.
(** rfc5652.id_data, rfc5652.id_signedData, rfc9629.id_ori_kem. *)
Definition DATA : oid := "1.2.840.113549.1.7.1".
Definition SIGNED : oid := "1.2.840.113549.1.7.2".
Definition ORI_KEM : oid := "1.2.840.113549.1.9.16.13.3".
(** resources/oidutils.py 273-278 and 451-455 (KM_KT_ALG, PROT_SYM_ALG, KM_KW_ALG), 662-673 (KEY_WRAP_NAME_2_OID). *)
Definition RSA : oid := "1.2.840.113549.1.1.1".
Definition OAEP : oid := "1.2.840.113549.1.1.7".
Definition CBC128 : oid := "2.16.840.1.101.3.4.1.2".
Definition CBC192 : oid := "2.16.840.1.101.3.4.1.22".
Definition CBC256 : oid := "2.16.840.1.101.3.4.1.42".
Definition WRAP128 : oid := "2.16.840.1.101.3.4.1.5".
Definition WRAP192 : oid := "2.16.840.1.101.3.4.1.25".
Definition WRAP256 : oid := "2.16.840.1.101.3.4.1.45".
(** resources/oidutils.py 450 (KM_KD_ALG) and 479-496 (HKDF_NAME_2_OID, KDF_OID_2_NAME). *)
Definition PBKDF2 : oid := "1.2.840.113549.1.5.12".
Definition KDF2 : oid := "1.3.133.16.840.9.44.1.1".
Definition KDF3 : oid := "1.3.133.16.840.9.44.1.2".
Definition hkdf_table : list (string * oid) :=
  [("hkdf-sha256", "1.2.840.113549.1.9.16.3.28"); ("hkdf-sha384", "1.2.840.113549.1.9.16.3.29");
   ("hkdf-sha512", "1.2.840.113549.1.9.16.3.30"); ("hkdf-sha3-224", "1.2.840.113549.1.9.16.3.32");
   ("hkdf-sha3-256", "1.2.840.113549.1.9.16.3.33"); ("hkdf-sha3-384", "1.2.840.113549.1.9.16.3.34");
   ("hkdf-sha3-512", "1.2.840.113549.1.9.16.3.35")].
(** resources/oidutils.py 363-378 (KM_KA_ALG) and 380-385 (ECMQV): the hash function, and whether the cofactor is used. *)
Definition ESDH : oid := "1.2.840.113549.1.9.16.3.5".
Definition X25519 : oid := "1.3.101.110".
Definition X448 : oid := "1.3.101.111".
Definition dh_table : list (oid * (string * bool)) :=
  [("1.3.132.1.11.0", ("sha224", false)); ("1.3.132.1.11.1", ("sha256", false)); ("1.3.132.1.11.2", ("sha384", false));
   ("1.3.132.1.11.3", ("sha512", false)); ("1.3.132.1.14.0", ("sha224", true)); ("1.3.132.1.14.1", ("sha256", true));
   ("1.3.132.1.14.2", ("sha384", true)); ("1.3.132.1.14.3", ("sha512", true))].
Definition mqv_table : list (oid * string) :=
  [("1.3.132.1.15.0", "sha224"); ("1.3.132.1.15.1", "sha256"); ("1.3.132.1.15.2", "sha384"); ("1.3.132.1.15.3", "sha512")].
(** rfc5753.id_ecPublicKey and rfc5990.id_kem_rsa. *)
Definition EC_PUBLIC : oid := "1.2.840.10045.2.1".
Definition KEM_RSA : oid := "1.0.18033.2.2.4".

Fixpoint find {A B} (eqb : A -> A -> bool) (k : A) (l : list (A * B)) : option B :=
  match l with [] => None | (x, v) :: r => if eqb x k then Some v else find eqb k r end.
Definition find_oid {B} := @find oid B String.eqb.
Definition key_of_value {B} (v : B) (eqb : B -> B -> bool) (l : list (oid * B)) : option oid :=
  find eqb v (map (fun p => (snd p, fst p)) l).

(** ** Structures *)

(** rfc5280.AlgorithmIdentifier. *)
Record alg := { g_oid : oid; g_par : option bytes }.
(** rfc5652.RecipientIdentifier; the choices of rfc5652.KeyAgreeRecipientIdentifier are the same two. *)
Inductive rid := RidSki (s : bytes) | RidIsn (issuer : bytes) (serial : Z).
(** rfc5652.OriginatorIdentifierOrKey. *)
Inductive orig := OrigSki (s : bytes) | OrigIsn (issuer : bytes) (serial : Z) | OrigKey (k : bytes).
(** rfc8018.PBKDF2_params: the salt is specified or comes from another source. *)
Record pbk := { k_salt : option bytes; k_iter : Z; k_len : option Z; k_prf : oid }.
(** rfc5652: PasswordRecipientInfo, KeyTransRecipientInfo, RecipientEncryptedKey, KeyAgreeRecipientInfo;
    rfc9629.KEMRecipientInfo. None is a field without a value. *)
Record pwri := { pw_version : option Z; pw_kdf : option alg; pw_wrap : option alg; pw_key : option bytes }.
Record ktri := { kt_version : Z; kt_rid : option rid; kt_alg : option alg; kt_key : option bytes }.
Record rek := { re_rid : rid; re_key : bytes }.
Record kari := { ka_version : option Z; ka_orig : option orig; ka_ukm : option bytes; ka_alg : option alg; ka_keys : list rek }.
Record kemri := { km_version : option Z; km_rid : option rid; km_kem : option oid; km_ct : option bytes;
                  km_kdf : option alg; km_kek : option Z; km_ukm : option bytes; km_wrap : option alg; km_key : option bytes }.
(** rfc5652.RecipientInfo: an OtherRecipientInfo has a type and an undecoded value; kekri is not used. *)
Inductive recip := Ktri (r : ktri) | Kari (r : kari) | Kekri | Pwri (r : pwri) | Ori (t : oid) (v : bytes).
(** rfc5652.EncryptedContentInfo, whose content may be absent, and rfc5652.EnvelopedData. *)
Record eci := { e_type : oid; e_alg : alg; e_data : option bytes }.
Record env := { v_version : Z; v_recips : list recip; v_content : eci }.
(** rfc5753.MQVuserKeyingMaterial: the algorithm of the ephemeral key, the key, the added keying material. *)
Record mqv := { m_alg : oid; m_key : bytes; m_added : option bytes }.
(** rfc4055.RSAES_OAEP_params: hash function, parameters of the mask generation function, whether pSourceFunc is set. *)
Record oaep := { o_hash : oid; o_mgf : bytes; o_src : bool }.
Inductive padding := Pkcs1 | OaepPad (hash mgf : string).

(** Keys: RSA, elliptic curves, X25519, X448, KEM keys with their algorithm, any other. *)
Inductive kind := KRsa | KEc | KX25519 | KX448 | KKem (o : oid) | KOther.
Record pub := { p_kind : kind; p_id : bytes }.
Record priv := { s_kind : kind; s_pub : bytes; s_id : bytes }.
Definition public_key (k : priv) : pub := {| p_kind := s_kind k; p_id := s_pub k |}.
(** rfc9480.CMPCertificate: its subject key identifier, issuer, serial number and subject public key info. *)
Record cert := { c_ski : option bytes; c_issuer : bytes; c_serial : Z; c_spki : bytes }.
(** PKIMessage: protection algorithm, extra certificates and the rest. *)
Record msg := { n_prot : option alg; n_extra : list cert; n_rest : bytes }.

(** The libraries: the cryptography package (AES, AES key wrap, RSA, PBKDF2, HKDF, key agreement), DER codecs, the
    keys, and of /repo: resources/cryptoutils.py 503-555 (perform_ecdh), 560-596 (compute_ansi_x9_63_kdf), 982-1045 and
    1089-1130 (one pass MQV), pq_logic encapsulation, resources/protectionutils.py get_cmp_protection_salt and
    verify_pkimessage_protection, resources/oid_mapping.py get_hash_from_oid. *)
Record lib := {
  l_wrap : bytes -> bytes -> result bytes; l_unwrap : bytes -> bytes -> result bytes;
  l_cbc : bytes -> bytes -> bytes -> result bytes; l_uncbc : bytes -> bytes -> bytes -> result bytes;
  l_rsa : pub -> padding -> bytes -> bytes -> result bytes; l_unrsa : priv -> padding -> bytes -> result bytes;
  l_pbkdf2 : string -> bytes -> Z -> Z -> bytes -> result bytes;
  l_hkdf : string -> bytes -> bytes -> Z -> bytes;
  l_x963 : string -> bool -> bytes -> bytes -> Z -> result bytes;
  l_ecdh : priv -> pub -> bool -> result bytes;
  l_mqv_send : priv -> priv -> pub -> bytes; l_mqv_recv : priv -> pub -> pub -> bytes;
  l_encaps : pub -> bytes -> result (bytes * bytes); l_decaps : priv -> bytes -> Z -> result bytes;
  l_ivenc : bytes -> bytes; l_ivdec : bytes -> option (bytes * bytes);
  l_pbkenc : pbk -> bytes; l_pbkdec : bytes -> option (pbk * bytes);
  l_oaepenc : oaep -> bytes; l_oaepdec : bytes -> option (oaep * bytes);
  l_oidenc : oid -> bytes; l_oiddec : bytes -> option (oid * bytes);
  l_algenc : alg -> bytes; l_algdec : bytes -> option (alg * bytes);
  l_mqvenc : mqv -> bytes; l_mqvdec : bytes -> option (mqv * bytes);
  l_kemenc : kemri -> bytes; l_kemdec : bytes -> option (kemri * bytes);
  l_shared : oid -> Z -> option bytes -> bytes; l_other : alg -> Z -> option bytes -> bytes;
  l_load : bytes -> result pub; l_spki : pub -> bytes;
  l_hash : oid -> result (option string); l_prf : oid -> result (option string); l_hmac : string -> result oid; l_sha : string -> result oid;
  l_kem : oid -> bool;
  l_salt : alg -> result bytes; l_verify : msg -> bytes -> result unit
}.

Definition need {A} (o : option A) : result A := match o with Some a => Ok a | None => Err EValueError end.
(** decoder.decode, and a remainder that is refused with an exception. *)
Definition decode {A} (d : option (A * bytes)) (rest : exn) : result A :=
  match d with Some (a, []) => Ok a | Some _ => Err rest | None => Err EPyAsn1 end.

(** ** Building *)

(** Models resources/envdatautils.py 86-103 (get_aes_keywrap_length) after KEY_WRAP_OID_2_NAME. *)
Definition wrap_length (o : oid) : option Z :=
  if String.eqb o WRAP128 then Some 16 else if String.eqb o WRAP192 then Some 24 else if String.eqb o WRAP256 then Some 32 else None.
(** resources/oidutils.py 662-664. *)
Definition wrap_name (n : string) : result oid :=
  if String.eqb n "aes128_wrap" then Ok WRAP128 else if String.eqb n "aes192_wrap" then Ok WRAP192
  else if String.eqb n "aes256_wrap" then Ok WRAP256 else Err EKeyError.

(** Models resources/envdatautils.py 107-145 (prepare_encrypted_content_info) with resources/prepare_alg_ids.py 272-305
    (prepare_symmetric_encr_alg_id) and resources/cryptoutils.py 445-446; the IV is given. *)
Definition build_content (L : lib) (cek iv data : bytes) (for_signed : bool) (enc_oid : option oid) : result eci :=
  let o := match List.length cek with 32%nat => CBC256 | 24%nat => CBC192 | _ => CBC128 end in
  let! _ := guard (Nat.eqb (List.length iv) 16) EValueError in
  let! c := l_cbc L cek iv data in
  Ok {| e_type := if for_signed then match enc_oid with Some x => x | None => SIGNED end else DATA;
        e_alg := {| g_oid := o; g_par := Some (l_ivenc L iv) |}; e_data := Some c |}.

(** Models resources/envdatautils.py 219-261 (prepare_enveloped_data), given RecipientInfo structures. *)
Definition build_env (L : lib) (recips : list recip) (cek iv data : bytes) (version : Z) (enc_oid : option oid) : result env :=
  let! c := build_content L cek iv data true enc_oid in
  Ok {| v_version := version; v_recips := recips; v_content := c |}.

(** Models resources/cryptoutils.py 324-351 (compute_pbkdf2_from_parameter) with resources/oid_mapping.py 138-185: a
    key length or a salt without a value cannot be converted. *)
Definition pbkdf2 (L : lib) (p : pbk) (pw : bytes) : result bytes :=
  let! salt := match k_salt p with Some s => Ok s | None => Err EPyAsn1 end in
  let! len := match k_len p with Some n => Ok n | None => Err EPyAsn1 end in
  let! h := l_prf L (k_prf p) in
  match h with
  | None => Err EBadAlg
  | Some h => l_pbkdf2 L h salt (k_iter p) len pw
  end.

(** resources/oidutils.py 294-306 (ALLOWED_HASH_TYPES). *)
Definition known_hash (h : string) : bool :=
  oid_in h ["sha1"; "sha224"; "sha256"; "sha384"; "sha512"; "shake128"; "shake256"; "sha3_224"; "sha3_256"; "sha3_384"; "sha3_512"].
(** Models resources/cryptoutils.py 600-619 (compute_hkdf) with resources/oid_mapping.py 171-185. *)
Definition hkdf (L : lib) (h : string) (ss info : bytes) (len : Z) : result bytes :=
  if known_hash h then Ok (l_hkdf L h ss info len) else Err EValueError.
(** Models resources/envdatautils.py 2012-2110 (prepare_password_recipient_info) and 2113-2128
    (wrap_key_password_based_key_management_technique); the parameter `aes_wrap` only chooses an algorithm that is
    overwritten. *)
Record pwri_opts := { po_version : Z; po_kdf : string; po_salt : bytes; po_iter : Z; po_len : Z; po_hash : string;
                      po_bad : bool; po_nokdf : bool }.
Definition build_pwri (L : lib) (pw cek : bytes) (o : pwri_opts) : result pwri :=
  let! (a, key) :=
    if String.eqb (po_kdf o) "pbkdf2" then
      let! prf := l_hmac L (po_hash o) in
      let p := {| k_salt := Some (po_salt o); k_iter := po_iter o; k_len := Some (po_len o); k_prf := prf |} in
      let! k := pbkdf2 L p pw in
      let! w := l_wrap L k cek in
      Ok ({| g_oid := PBKDF2; g_par := Some (l_pbkenc L p) |}, w)
    else if String.eqb (po_kdf o) "hkdf" then
      match find_oid ("hkdf-" ++ po_hash o)%string hkdf_table with
      | None => Err EKeyError
      | Some x =>
          let! k := hkdf L (po_hash o) cek [] (po_len o) in
          let! w := l_wrap L k cek in
          Ok ({| g_oid := x; g_par := None |}, w)
      end
    else Err ENotImplemented in
  let key' := if po_bad o then manipulate_first_byte key else Ok key in
  let! key' := key' in
  Ok {| pw_version := Some (po_version o); pw_kdf := if po_nokdf o then None else Some a;
        pw_wrap := Some {| g_oid := WRAP256; g_par := None |}; pw_key := Some key' |}.

(** Models resources/envdatautils.py 151-215 (prepare_enveloped_data_with_pwri): `kdf` is passed on under a name that is
    not read. *)
Definition build_env_pwri (L : lib) (pw data cek salt iv : bytes) (kdf : string) (raw : bool) (o : oid) : result env :=
  let! r := build_pwri L pw cek {| po_version := 3; po_kdf := "pbkdf2"; po_salt := salt; po_iter := 100000; po_len := 32;
                                   po_hash := "sha256"; po_bad := false; po_nokdf := false |} in
  build_env L [Pwri r] cek iv data 0 (Some (if raw then DATA else o)).

(** Models resources/certbuildutils.py 2860-2920 (prepare_issuer_and_serial_number), given only a certificate. *)
Definition isn_of (c : cert) : bytes * Z := (c_issuer c, c_serial c).

(** Models resources/envdatautils.py 302-368 (prepare_recipient_identifier) without a key. *)
Definition recipient_id (c : option cert) (isn : option (bytes * Z)) (ski : option bytes) (bad : bool) : result rid :=
  match isn with
  | Some (i, n) => Ok (RidIsn i n)
  | None =>
      let s := match c, ski with Some c, None => c_ski c | _, s => s end in
      let! s := match s with
                | Some s => if bad then let! b := manipulate_first_byte s in Ok (Some b) else Ok (Some s)
                | None => Ok None
                end in
      match s, c with
      | Some s, _ => Ok (RidSki s)
      | None, Some c => Ok (RidIsn (c_issuer c) (c_serial c))
      | None, None => Err EValueError
      end
  end.

(** Models resources/protectionutils.py 2398-2420 (get_rsa_oaep_padding) with resources/oid_mapping.py 138-185. *)
Definition oaep_padding (L : lib) (p : oaep) : result padding :=
  let! h := l_hash L (o_hash p) in
  let! h := match h with Some h => Ok h | None => Err ETypeError end in
  let! o := decode (l_oiddec L (o_mgf p)) EBadAsn1Data in
  let! g := l_hash L o in
  let! g := match g with Some g => Ok g | None => Err ETypeError end in
  let! _ := guard (negb (o_src p)) ENotImplemented in
  Ok (OaepPad h g).

(** Models resources/envdatautils.py 733-765 (_get_rsa_kari_alg_id, _encrypt_rsa_oaep), rfc4055.id_sha384 and id_sha256. *)
Definition oaep_params (L : lib) : oaep :=
  {| o_hash := "2.16.840.1.101.3.4.2.2"; o_mgf := l_oidenc L "2.16.840.1.101.3.4.2.1"; o_src := false |}.

(** Models resources/envdatautils.py 768-803 (prepare_ktri) and 806-857 (prepare_key_transport_recipient_info). *)
Definition build_ktri (L : lib) (p : pub) (c : option cert) (cek coins : bytes) (use_oaep : bool)
  (isn : option (bytes * Z)) (r : option rid) : result ktri :=
  match p_kind p with
  | KRsa =>
      let a := if use_oaep then {| g_oid := OAEP; g_par := Some (l_oaepenc L (oaep_params L)) |}
               else {| g_oid := RSA; g_par := None |} in
      let! pad := if use_oaep then oaep_padding L (oaep_params L) else Ok Pkcs1 in
      let! w := l_rsa L p pad coins cek in
      let! i := match r with Some i => Ok i | None => recipient_id c isn None false end in
      Ok {| kt_version := 2; kt_rid := Some i; kt_alg := Some a; kt_key := Some w |}
  | _ => Err EValueError
  end.

(** Models resources/cryptoutils.py 900-927 (derive_shared_secret_ec) and 955-971, with prepare_ecc_cms_shared_info. *)
Definition derive_ec (L : lib) (z : bytes) (w : oid) (h : string) (ukm : option bytes) : result bytes :=
  match wrap_length w with
  | None => Err EKeyError
  | Some n => l_x963 L h true z (l_shared L w (8 * n) ukm) n
  end.
(** Models resources/cryptoutils.py 931-971 (perform_static_dh), given a public key. *)
Definition static_dh (L : lib) (k : priv) (p : pub) (h : string) (w : oid) (ukm : option bytes) (cof : bool) : result bytes :=
  match wrap_length w with
  | None => Err EKeyError
  | Some _ => let! z := l_ecdh L k p cof in derive_ec L z w h ukm
  end.

Definition ecdh_kind (k : kind) : bool := match k with KEc | KX25519 | KX448 => true | _ => false end.
Definition is_ec (k : kind) : bool := match k with KEc => true | _ => false end.

(** Models resources/envdatautils.py 860-924 (_get_kari_ephemeral_oid, _get_ecc_dh_oid, _get_kari_oid). *)
Record kari_opts := { ko_hash : string; ko_cof : bool; ko_mqv : bool; ko_oid : option oid; ko_wrap : oid }.
Definition kari_oid (p : pub) (o : kari_opts) : result oid :=
  match ko_oid o with
  | Some x => Ok x
  | None =>
      match p_kind p with
      | KX448 => Ok X448
      | KX25519 => Ok X25519
      | _ =>
          if ko_mqv o then match key_of_value (ko_hash o) String.eqb mqv_table with Some x => Ok x | None => Err EKeyError end
          else match key_of_value (ko_hash o, ko_cof o) (fun a b => String.eqb (fst a) (fst b) && Bool.eqb (snd a) (snd b)) dh_table with
               | Some x => Ok x | None => Err EValueError end
      end
  end.

(** Models resources/envdatautils.py 927-977 (_compute_kari_sender) and 2224-2271 (perform_sender_ecdh_one_pass_mqv) with
    1625-1653 (prepare_mqv_user_keying_material); the ephemeral key is given. *)
Definition kari_sender (L : lib) (p : pub) (k eph : priv) (o : kari_opts) (ukm : bytes) : result (bytes * bytes) :=
  if ko_mqv o then
    let! _ := guard (is_ec (p_kind p) && is_ec (s_kind k)) ETypeError in
    let z := l_mqv_send L k eph p in
    let u := {| m_alg := EC_PUBLIC; m_key := l_spki L (public_key eph); m_added := Some ukm |} in
    let! kek := derive_ec L z (ko_wrap o) (ko_hash o) (Some ukm) in
    Ok (kek, l_mqvenc L u)
  else
    let! kek := static_dh L k p (ko_hash o) (ko_wrap o) (Some ukm) (ko_cof o) in
    Ok (kek, ukm).

(** Models resources/envdatautils.py 1693-1745 (prepare_originator_identifier_or_key) without invalid_ski. *)
Definition originator_id (c : option cert) (isn : option (bytes * Z)) : result orig :=
  match isn, c with
  | Some (i, n), _ => Ok (OrigIsn i n)
  | None, Some c => match c_ski c with Some s => Ok (OrigSki s) | None => Ok (OrigIsn (c_issuer c) (c_serial c)) end
  | None, None => Err EValueError
  end.
(** Models resources/envdatautils.py 1748-1805 (_prepare_key_agree_rid) without bad_ski. *)
Definition kari_rid (c : option cert) (isn : option (bytes * Z)) (r : option rid) : result rid :=
  match r with
  | Some i => Ok i
  | None =>
      match match c with Some c => c_ski c | None => None end, isn, c with
      | Some s, _, _ => Ok (RidSki s)
      | None, Some (i, n), _ => Ok (RidIsn i n)
      | None, None, Some c => Ok (RidIsn (c_issuer c) (c_serial c))
      | None, None, None => Err EValueError
      end
  end.

(** Models resources/envdatautils.py 997-1088 (prepare_kari), 1808-1838 (prepare_recipient_encrypted_key), 1871-1901
    (prepare_key_agreement_alg_id) and 1905-1972 (prepare_key_agreement_recipient_info). *)
Definition build_kari (L : lib) (p : pub) (k eph : priv) (c : option cert) (cek ukm : bytes) (o : kari_opts)
  (isn : option (bytes * Z)) (originator : option orig) (r : option rid) : result kari :=
  let! x := kari_oid p o in
  let! (kek, u) := kari_sender L p k eph o ukm in
  let! w := l_wrap L kek cek in
  let! _ := guard (match isn, c with None, None => false | _, _ => true end) EValueError in
  let! og := match originator with Some g => Ok g | None => originator_id c isn end in
  let! i := kari_rid c isn r in
  Ok {| ka_version := Some 3; ka_orig := Some og; ka_ukm := Some u;
        ka_alg := Some {| g_oid := x; g_par := Some (l_algenc L {| g_oid := ko_wrap o; g_par := None |}) |};
        ka_keys := [{| re_rid := i; re_key := w |}] |}.

(** The name of the hash function of an HKDF identifier, `name.split("-")[1]`: what is between the first two hyphens. *)
Definition hkdf_hash (o : oid) : option string :=
  match key_of_value o String.eqb hkdf_table with
  | Some n => if oid_in n ["hkdf-sha256"] then Some "sha256" else if oid_in n ["hkdf-sha384"] then Some "sha384"
              else if oid_in n ["hkdf-sha512"] then Some "sha512" else Some "sha3"
  | None => None
  end.

(** Models resources/prepare_alg_ids.py 157-200 and 201-250 (prepare_kdf_alg_id): the identifier, and the parameters of
    PBKDF2 as a structure. *)
Definition build_kdf (L : lib) (name h : string) (salt : bytes) : result (alg * option pbk) :=
  if String.eqb name "hkdf" then
    match find_oid ("hkdf-" ++ h)%string hkdf_table with
    | Some o => Ok ({| g_oid := o; g_par := None |}, None)
    | None => Err EKeyError
    end
  else if String.eqb (substring 0 3 name) "kdf" then
    let! s := l_sha L h in
    Ok ({| g_oid := if String.eqb name "kdf2" then KDF2 else KDF3; g_par := Some (l_algenc L {| g_oid := s; g_par := None |}) |}, None)
  else if String.eqb (substring 0 6 name) "pbkdf2" then
    let! prf := l_hmac L h in
    let p := {| k_salt := Some salt; k_iter := 100000; k_len := Some 32; k_prf := prf |} in
    Ok ({| g_oid := PBKDF2; g_par := Some (l_pbkenc L p) |}, Some p)
  else Err EValueError.

(** Models resources/protectionutils.py 2055-2104 (compute_kdf_from_alg_id). PBKDF2 parameters that are not yet encoded
    are given as `p`; encoded ones are decoded as an AlgorithmIdentifier, which has no prf. *)
Definition compute_kdf (L : lib) (a : alg) (p : option pbk) (ss : bytes) (len : Z) (ukm : bytes) : result bytes :=
  match hkdf_hash (g_oid a) with
  | Some h => hkdf L h ss ukm len
  | None =>
      if oid_in (g_oid a) [KDF2; KDF3] then
        let! d := match g_par a with Some d => Ok d | None => Err EPyAsn1 end in
        match l_algdec L d with
        | None => Err EPyAsn1
        | Some (s, _) =>
            let! h := l_hash L (g_oid s) in
            match h with
            | None => Err EBadAlg
            | Some h => l_x963 L h (String.eqb (g_oid a) KDF2) ss ukm len
            end
        end
      else if String.eqb (g_oid a) PBKDF2 then
        match p with
        | None => match g_par a with
                  | None => Err EPyAsn1
                  | Some d => match l_algdec L d with None => Err EPyAsn1 | Some _ => Err EKeyError end
                  end
        | Some p => pbkdf2 L p ss
        end
      else Err EValueError
  end.

(** Models resources/envdatautils.py 1450-1488 (_handle_kem_encapsulation) and 1491-1621 (prepare_kem_recip_info); given
    keys are not RSA keys, no encrypted key is given. *)
Record kem_opts := { eo_version : Z; eo_kdf : string; eo_hash : string; eo_salt : bytes; eo_ukm : option bytes;
                     eo_wrap : string; eo_kek : option Z; eo_oid : option oid; eo_ct : option bytes; eo_ss : option bytes }.
Definition build_kemri (L : lib) (p : option pub) (c : option cert) (cek coins : bytes) (o : kem_opts)
  (isn : option (bytes * Z)) (ski : option bytes) (bad : bool) (r : option rid) : result kemri :=
  let! i := match r with Some i => Ok i | None => recipient_id c isn ski bad end in
  let! w := wrap_name (eo_wrap o) in
  let wa := {| g_oid := w; g_par := None |} in
  let! n := match eo_kek o with Some n => if n =? 0 then need (wrap_length w) else Ok n | None => need (wrap_length w) end in
  let info := l_other L wa n (eo_ukm o) in
  let! (ss, ct, x) :=
    match eo_ct o, eo_ss o with
    | Some ct, Some ss => Ok (ss, ct, eo_oid o)
    | _, _ =>
        let! q := match p, c with
                  | Some q, _ => Ok q
                  | None, Some c => l_load L (c_spki c)
                  | None, None => Err EValueError
                  end in
        match p_kind q with
        | KKem k =>
            let! (ss, ct) := l_encaps L q coins in
            Ok (ss, match eo_ct o with Some ct' => ct' | None => ct end, match eo_oid o with Some x => Some x | None => Some k end)
        | _ => Err EValueError
        end
    end in
  let! (a, pk) := build_kdf L (eo_kdf o) (eo_hash o) (eo_salt o) in
  let! kek := compute_kdf L a pk ss n info in
  let! e := l_wrap L kek cek in
  Ok {| km_version := Some (eo_version o); km_rid := Some i; km_kem := x; km_ct := Some ct; km_kdf := Some a;
        km_kek := Some n; km_ukm := eo_ukm o; km_wrap := Some wa; km_key := Some e |}.

Definition kari_defaults : kari_opts := {| ko_hash := "sha256"; ko_cof := false; ko_mqv := false; ko_oid := None; ko_wrap := WRAP256 |}.
Definition kem_defaults : kem_opts :=
  {| eo_version := 0; eo_kdf := "hkdf"; eo_hash := "sha256"; eo_salt := []; eo_ukm := None; eo_wrap := "aes256_wrap";
     eo_kek := None; eo_oid := None; eo_ct := None; eo_ss := None |}.

(** Models resources/envdatautils.py 1374-1447 (build_env_data_for_exchange). *)
Definition build_exchange (L : lib) (p : pub) (data : bytes) (k : option priv) (eph : priv) (c : option cert)
  (cek iv ukm coins : bytes) (isn : option (bytes * Z)) (use_oaep : bool) (enc_oid : option oid) : result env :=
  match p_kind p with
  | KRsa => let! r := build_ktri L p c cek coins use_oaep isn None in build_env L [Ktri r] cek iv data 2 enc_oid
  | KEc | KX25519 | KX448 =>
      match k with
      | Some k =>
          let! _ := guard (ecdh_kind (s_kind k)) EValueError in
          let! r := build_kari L p k eph c cek ukm kari_defaults isn None None in
          build_env L [Kari r] cek iv data 2 enc_oid
      | None => Err EValueError
      end
  | KKem _ =>
      let! r := build_kemri L (Some p) c cek coins kem_defaults isn None false None in
      build_env L [Ori ORI_KEM (l_kemenc L r)] cek iv data 2 enc_oid
  | KOther => Err EValueError
  end.

(** ** Opening *)

(** Models resources/ca_kga_logic.py 1048-1101 (validate_encrypted_content_info) with resources/cryptoutils.py 445-446. *)
Definition open_content (L : lib) (e : eci) (cek : bytes) (raw : bool) : result bytes :=
  let! _ := guard (String.eqb (e_type e) (if raw then DATA else SIGNED)) EValueError in
  let! n := (if String.eqb (g_oid (e_alg e)) CBC128 then Ok 16 else if String.eqb (g_oid (e_alg e)) CBC192 then Ok 24
             else if String.eqb (g_oid (e_alg e)) CBC256 then Ok 32 else Err EBadAlg) in
  let! d := match g_par (e_alg e) with Some d => Ok d | None => Err EBadAsn1Data end in
  let! iv := match l_ivdec L d with Some (iv, []) => Ok iv | _ => Err EBadAsn1Data end in
  let! c := match e_data e with Some c => Ok c | None => Err EPyAsn1 end in
  let! _ := guard (Z.of_nat (List.length cek) =? n) EValueError in
  let! _ := guard (Nat.eqb (List.length iv) 16) EValueError in
  l_uncbc L cek iv c.

(** Models resources/ca_kga_logic.py 1552-1622 (validate_password_recipient_info) and 1625-1637
    (_check_aes_wrap_and_key_size). *)
Definition validate_pwri_info (L : lib) (r : pwri) (salt : bytes) : result (pbk * bytes) :=
  let! v := need (pw_version r) in
  let! _ := guard (v =? 3) EValueError in
  let! a := need (pw_kdf r) in
  let! _ := guard (String.eqb (g_oid a) PBKDF2) EValueError in
  let! w := need (pw_wrap r) in
  let! n := need (wrap_length (g_oid w)) in
  let! key := need (pw_key r) in
  let! d := match g_par a with Some d => Ok d | None => Err EPyAsn1 end in
  let! p := decode (l_pbkdec L d) EValueError in
  let! _ := guard (match g_par w with None => true | Some _ => false end) EValueError in
  let! s := match k_salt p with Some s => Ok s | None => Err ENotImplemented end in
  let! _ := guard (negb (bytes_eqb s salt)) EValueError in
  let! len := match k_len p with Some n => Ok n | None => Err EPyAsn1 end in
  let! _ := guard (len =? n) EValueError in
  Ok (p, key).

(** Models resources/ca_kga_logic.py 376-417 (_extract_pwri_content_enc_key), 1640-1653
    (_compute_password_based_key_management_technique). *)
Definition extract_pwri (L : lib) (m : option msg) (pw : option bytes) (r : recip) (salt : option bytes) : result bytes :=
  match r with
  | Pwri r =>
      let! pw := need pw in
      let! s := match salt, m with
                | Some s, _ => Ok s
                | None, Some m => let! a := need (n_prot m) in l_salt L a
                | None, None => Err EValueError
                end in
      let! (p, key) := validate_pwri_info L r s in
      let! k := pbkdf2 L p pw in
      l_unwrap L k key
  | _ => Err EValueError
  end.

(** Models resources/ca_kga_logic.py 1860-1882 (validate_issuer_and_serial_number_field). *)
Definition check_isn (i : bytes) (n : Z) (c : cert) : result unit :=
  let! _ := guard (bytes_eqb i (c_issuer c)) EValueError in
  guard (n =? c_serial c) EValueError.

(** Models resources/ca_kga_logic.py 1968-1999 (_check_recipient_identifier) without for_pop and 2003-2023
    (validate_recip_identifier): a choice that was not made cannot be read. *)
Definition check_rid (r : rid) (c : cert) : result unit :=
  match c_ski c, r with
  | Some s, RidSki x => guard (bytes_eqb s x) EValueError
  | Some _, RidIsn _ _ => Err EValueError
  | None, RidIsn i n => check_isn i n c
  | None, RidSki _ => Err EPyAsn1
  end.

(** Models resources/ca_kga_logic.py 1767-1816 (check_recip_enc_key). *)
Definition check_recip_key (r : rek) (c : option cert) (pop : bool) : result bytes :=
  if pop then Ok (re_key r) else
  match c with
  | None => Err EAttribute
  | Some c =>
      let! _ := match c_ski c, re_rid r with
                | Some s, RidSki x => guard (bytes_eqb x s) EValueError
                | None, RidIsn i n => check_isn i n c
                | _, _ => Err EValueError
                end in
      Ok (re_key r)
  end.
(** Models resources/ca_kga_logic.py 1820-1857 (validate_originator_in_kari). *)
Definition check_originator (o : orig) (c : cert) : result unit :=
  match c_ski c, o with
  | Some s, OrigSki x => guard (bytes_eqb s x) EValueError
  | None, OrigIsn i n => check_isn i n c
  | _, _ => Err EValueError
  end.

Definition is_mqv (o : oid) : bool := match find_oid o mqv_table with Some _ => true | None => false end.
Definition is_ka (o : oid) : bool :=
  oid_in o [ESDH; X25519; X448] || (match find_oid o dh_table with Some _ => true | None => false end) || is_mqv o.

(** Models resources/ca_kga_logic.py 1672-1736 (validate_key_agree_recipient_info), 1656-1669. *)
Definition validate_kari_info (r : kari) (c : option cert) (pop : bool) : result (bytes * alg * option bytes) :=
  let! _ := guard (pop || match c with Some _ => true | None => false end) EValueError in
  let! v := need (ka_version r) in
  let! _ := guard (v =? 3) EValueError in
  let! o := need (ka_orig r) in
  let! _ := if pop then Ok tt else match c with Some c => check_originator o c | None => Err EValueError end in
  let! a := need (ka_alg r) in
  let! _ := guard (is_ka (g_oid a)) EValueError in
  let! _ := match ka_ukm r with None => guard (negb (is_mqv (g_oid a))) EValueError | Some _ => Ok tt end in
  match ka_keys r with
  | [k] => let! e := check_recip_key k c pop in Ok (e, a, ka_ukm r)
  | _ => Err EValueError
  end.

(** Models resources/ca_kga_logic.py 84-130 (process_mqv) with resources/cryptoutils.py 1047-1085 (perform_one_pass_mqv). *)
Definition process_mqv (L : lib) (der : option bytes) (k : priv) (h : string) (w : oid) (c : cert) : result bytes :=
  let! d := match der with Some d => Ok d | None => Err EBadAsn1Data end in
  let! u := decode (l_mqvdec L d) EValueError in
  let! _ := guard (String.eqb (m_alg u) EC_PUBLIC) EValueError in
  let! e := l_load L (m_key u) in
  let! _ := guard (is_ec (p_kind e)) EValueError in
  let! p := l_load L (c_spki c) in
  let! _ := guard (is_ec (p_kind p)) ETypeError in
  derive_ec L (l_mqv_recv L k p e) w h (m_added u).

(** Models resources/cryptoutils.py 931-971 (perform_static_dh), given a certificate. *)
Definition static_dh_cert (L : lib) (k : priv) (c : cert) (h : string) (w : oid) (ukm : option bytes) (cof : bool) : result bytes :=
  match wrap_length w with
  | None => Err EKeyError
  | Some _ =>
      let! p := l_load L (c_spki c) in
      let! _ := guard (ecdh_kind (p_kind p)) EValueError in
      static_dh L k p h w ukm cof
  end.

(** Models resources/ca_kga_logic.py 134-209 (process_kari). *)
Definition process_kari (L : lib) (a : alg) (k : priv) (c : cert) (ukm : option bytes) : result bytes :=
  let! d := match g_par a with Some d => Ok d | None => Err EBadAsn1Data end in
  let! w := match l_algdec L d with Some (w, []) => Ok w | _ => Err EBadAsn1Data end in
  match find_oid (g_oid a) mqv_table with
  | Some h =>
      let! _ := guard (is_ec (s_kind k)) EValueError in
      process_mqv L ukm k h (g_oid w) c
  | None =>
      if oid_in (g_oid a) [X25519; X448; ESDH] then static_dh_cert L k c "sha256" (g_oid w) ukm false
      else match find_oid (g_oid a) dh_table with
           | Some (h, cof) => static_dh_cert L k c h (g_oid w) ukm cof
           | None => Err EValueError
           end
  end.

(** Models resources/ca_kga_logic.py 1740-1763 (compute_key_agreement_mechanism). *)
Definition key_agreement (L : lib) (k : priv) (c : cert) (a : alg) (e : bytes) (ukm : option bytes) : result bytes :=
  let! kek := process_kari L a k c ukm in
  l_unwrap L kek e.

(** Models resources/ca_kga_logic.py 1886-1926 (validate_key_trans_recipient_info). *)
Definition validate_ktri_info (r : ktri) (c : option cert) (pop : bool) : result (bytes * alg) :=
  let! _ := guard (kt_version r =? 2) EValueError in
  let! _ := if pop then Ok tt else
            match c with Some c => let! i := need (kt_rid r) in check_rid i c | None => Err EValueError end in
  let! a := need (kt_alg r) in
  let! _ := guard (oid_in (g_oid a) [RSA; OAEP]) EValueError in
  let! e := need (kt_key r) in
  Ok (e, a).

(** Models resources/ca_kga_logic.py 1929-1965 (compute_key_transport_mechanism) and resources/compareutils.py 584-598
    (check_if_alg_id_parameters_is_absent): the DER encoding of NULL is absence, whether it is allowed or not. *)
Definition key_transport (L : lib) (k : priv) (a : alg) (e : bytes) (allow_null : bool) : result bytes :=
  let! pad :=
    if String.eqb (g_oid a) RSA then
      let! _ := guard (match g_par a with None => true | Some d => bytes_eqb d [5; 0] end) EValueError in Ok Pkcs1
    else
      let! d := match g_par a with Some d => Ok d | None => Err EPyAsn1 end in
      let! p := decode (l_oaepdec L d) EValueError in
      oaep_padding L p in
  l_unrsa L k pad e.

(** ** Recipients *)

(** Models resources/ca_kga_logic.py 420-455 (_extract_kari_content_enc_key) after the check of the key at 497. *)
Definition extract_kari (L : lib) (r : kari) (c : option cert) (k : priv) (pop : bool) (kc : option cert) : result bytes :=
  let! _ := guard (ecdh_kind (s_kind k)) EValueError in
  let! (e, a, u) := validate_kari_info r c pop in
  match (match kc with Some x => Some x | None => c end) with
  | None => Err EValueError
  | Some x => key_agreement L k x a e u
  end.

(** Models resources/ca_kga_logic.py 458-511 (_extract_ktri_and_kari_content_enc_key), the ktri branch. *)
Definition extract_ktri (L : lib) (r : ktri) (c : option cert) (k : priv) (pop null : bool) : result bytes :=
  let! _ := guard (pop || match c with Some _ => true | None => false end) EValueError in
  let! (e, a) := validate_ktri_info r c pop in
  let! _ := guard (match s_kind k with KRsa => true | _ => false end) EValueError in
  key_transport L k a e null.

(** Models pq_logic/pq_utils.py 20-38 (get_kem_oid_from_key). *)
Definition kem_oid (k : priv) : result oid :=
  match s_kind k with KRsa => Ok KEM_RSA | KKem o => Ok o | _ => Err EValueError end.

(** Models resources/ca_kga_logic.py 2026-2061 (_validate_kem_and_kemct). *)
Definition check_kem (L : lib) (r : kemri) (k : option priv) (sun : bool) : result bytes :=
  let! o := need (km_kem r) in
  let! _ := guard (l_kem L o) EBadAlg in
  let! ct := need (km_ct r) in
  let! _ := match k with
            | Some k => if sun then Ok tt else let! x := kem_oid k in guard (String.eqb x o) EValueError
            | None => Ok tt
            end in
  Ok ct.

(** Models resources/ca_kga_logic.py 2064-2096 (_validate_kemri_wrap_and_kek). *)
Definition check_kek (r : kemri) : result (alg * Z) :=
  let! w := need (km_wrap r) in
  let! n := need (km_kek r) in
  let! x := need (wrap_length (g_oid w)) in
  let! _ := guard (n =? x) EValueError in
  Ok (w, n).

Definition is_kdf (o : oid) : bool :=
  oid_in o [PBKDF2; KDF2; KDF3] || match hkdf_hash o with Some _ => true | None => false end.

(** Models resources/ca_kga_logic.py 2100-2182 (validate_kem_recip_info_structure): encrypted key, ciphertext, derivation
    function, wrap algorithm, length. *)
Definition validate_kemri_info (L : lib) (r : kemri) (c : option cert) (pop : bool) (k : option priv) (sun : bool)
  : result (bytes * bytes * alg * alg * Z) :=
  let! _ := guard (match km_version r with Some v => v =? 0 | None => false end) EValueError in
  let! i := need (km_rid r) in
  let! _ := if pop then Ok tt else match c with Some c => check_rid i c | None => Err EValueError end in
  let! ct := check_kem L r k sun in
  let! f := need (km_kdf r) in
  let! _ := guard (is_kdf (g_oid f)) EValueError in
  let! (w, n) := check_kek r in
  let! e := need (km_key r) in
  Ok (e, ct, f, w, n).

(** Models resources/ca_kga_logic.py 2210-2269 (process_kem_recip_info) and 2186-2206; how the three kinds of private keys
    decapsulate is left to the library. A key that has no decapsulation has no such attribute. *)
Definition process_kemri (L : lib) (r : kemri) (c : option cert) (k : option priv) (pop sun : bool) : result bytes :=
  let! _ := guard (pop || match c with Some _ => true | None => false end) EValueError in
  let! (e, ct, f, w, n) := validate_kemri_info L r c pop k sun in
  match k with
  | None => Err EAttribute
  | Some k =>
      let! _ := guard (match s_kind k with KKem _ | KRsa => true | _ => false end) EAttribute in
      let! ss := l_decaps L k ct n in
      let! kek := compute_kdf L f None ss n (l_other L w n (km_ukm r)) in
      l_unwrap L kek e
  end.

(** Models resources/ca_kga_logic.py 515-544 (process_other_recip_info) and 672-695 (_decode_kem_recip_info), which do the
    same with an OtherRecipientInfo. *)
Definition decode_kemri (L : lib) (t : oid) (v : bytes) : result kemri :=
  let! _ := guard (String.eqb t ORI_KEM) EValueError in
  decode (l_kemdec L v) EBadAsn1Data.

(** ** Opening an EnvelopedData *)

Inductive rname := NKtri | NKari | NKekri | NPwri | NOri.
Definition name_of (r : recip) : rname :=
  match r with Ktri _ => NKtri | Kari _ => NKari | Kekri => NKekri | Pwri _ => NPwri | Ori _ _ => NOri end.
Definition rname_eqb (a b : rname) : bool :=
  match a, b with NKtri, NKtri | NKari, NKari | NKekri, NKekri | NPwri, NPwri | NOri, NOri => true | _, _ => false end.

(** Models resources/ca_kga_logic.py 774-797 (_validate_recip_info_size). *)
Definition recip_at (v : env) (size index : nat) (t : option rname) : result recip :=
  let! _ := guard (Nat.eqb (List.length (v_recips v)) size) EValueError in
  match nth_error (v_recips v) index with
  | None => Err EValueError
  | Some r => match t with
              | None => Ok r
              | Some t => let! _ := guard (rname_eqb (name_of r) t) EValueError in Ok r
              end
  end.

(** Models resources/ca_kga_logic.py 547-572 (_get_kari_cert). *)
Definition is_x (k : kind) : bool := match k with KX25519 | KX448 => true | _ => false end.
Definition get_kari_cert (L : lib) (m : msg) : result cert :=
  match n_extra m with
  | [] => Err EValueError
  | c :: l =>
      let! p := l_load L (c_spki c) in
      if is_x (p_kind p) then Ok c else
      match l with
      | [] => Err EValueError
      | c1 :: _ =>
          let! p1 := l_load L (c_spki c1) in
          if is_x (p_kind p1) then Ok c1 else Err EValueError
      end
  end.

(** What is given beside the EnvelopedData. *)
Record given := { i_msg : option msg; i_pw : option bytes; i_cert : option cert; i_kari : option cert;
                  i_key : option priv; i_pop : bool; i_null : bool; i_salt : option bytes }.

(** Models resources/ca_kga_logic.py 575-668 (extract_content_encryption_key). *)
Definition extract_cek (L : lib) (v : env) (g : given) (index size : nat) : result bytes :=
  let! _ := guard (Nat.eqb (List.length (v_recips v)) size) EValueError in
  match nth_error (v_recips v) index with
  | None => Err EValueError
  | Some (Pwri r) =>
      let! _ := guard (match i_pw g with Some _ => true | None => false end) EValueError in
      let! _ := guard (match i_msg g, i_salt g with None, None => false | _, _ => true end) EValueError in
      extract_pwri L (i_msg g) (i_pw g) (Pwri r) (i_salt g)
  | Some (Ori t x) =>
      let! r := decode_kemri L t x in
      process_kemri L r (i_cert g) (i_key g) (i_pop g) false
  | Some Kekri => Err EValueError
  | Some r =>
      let! _ := guard (i_pop g || match i_cert g with Some _ => true | None => false end) EValueError in
      let! k := need (i_key g) in
      let! kc := match i_kari g with
                 | Some c => Ok (Some c)
                 | None => if is_x (s_kind k) then
                             match i_msg g with
                             | Some m => let! c := get_kari_cert L m in Ok (Some c)
                             | None => Err EValueError
                             end
                           else Ok None
                 end in
      match r with
      | Ktri r => extract_ktri L r (i_cert g) k (i_pop g) (i_null g)
      | Kari r => extract_kari L r (i_cert g) k (i_pop g) kc
      | _ => Err EValueError
      end
  end.

(** Models resources/ca_kga_logic.py 873-947 (validate_pwri_enveloped_data). *)
Definition open_pwri (L : lib) (v : env) (pw : option bytes) (m : option msg) (salt : option bytes) (size index : nat)
  (raw skip : bool) : result bytes :=
  let! _ := guard (match salt, m with None, None => false | _, _ => true end) EValueError in
  let! r := recip_at v size index (Some NPwri) in
  let! cek := extract_pwri L m pw r salt in
  let! d := open_content L (v_content v) cek raw in
  if skip then Ok d else
  match m, pw with
  | Some m, Some p => let! _ := l_verify L m p in Ok d
  | _, _ => Err EValueError
  end.

(** Models resources/ca_kga_logic.py 800-869 (validate_kemri_enveloped_data). *)
Definition open_kemri (L : lib) (v : env) (k : priv) (c : option cert) (size index : nat) (pop raw sun : bool) : result bytes :=
  let! r := recip_at v size index (Some NOri) in
  match r with
  | Ori t x =>
      let! r := decode_kemri L t x in
      let! cek := process_kemri L r c (Some k) pop sun in
      open_content L (v_content v) cek raw
  | _ => Err EValueError
  end.

(** Models resources/ca_kga_logic.py 699-771 (validate_kemri_env_data_for_ca). *)
Definition open_kemri_ca (L : lib) (v : env) (c : option cert) (size index : nat) (pop raw : bool) (k h : option priv)
  (hc : option cert) : result bytes :=
  let! _ := guard (match k, h with None, None => false | _, _ => true end) EValueError in
  let! r := recip_at v size index (Some NOri) in
  match r with
  | Ori t x =>
      let! r := decode_kemri L t x in
      let! o := match km_kem r with Some o => Ok o | None => Err EPyAsn1 end in
      let! ko := match k with Some k => let! y := kem_oid k in Ok (Some y) | None => Ok None end in
      let! ho := match h with Some h => let! y := kem_oid h in Ok (Some y) | None => Ok None end in
      let is o' := match o' with Some y => String.eqb y o | None => false end in
      let! (key, crt) := if is ko then Ok (k, c) else if is ho then Ok (h, hc) else Err EValueError in
      let! _ := guard (match key with Some y => match s_kind y with KKem _ => true | _ => false end | None => false end) EValueError in
      let! cek := process_kemri L r crt key pop false in
      open_content L (v_content v) cek raw
  | _ => Err EValueError
  end.

(** Models resources/ca_kga_logic.py 2316-2377 (validate_kari_env_data). *)
Definition open_kari (L : lib) (v : env) (k : priv) (c : option cert) (raw pop : bool) : result bytes :=
  let! r := recip_at v 1 0 (Some NKari) in
  match r with
  | Kari r =>
      let! (e, a, u) := validate_kari_info r c pop in
      match c with
      | None => Err EValueError
      | Some c =>
          let! cek := key_agreement L k c a e u in
          open_content L (v_content v) cek raw
      end
  | _ => Err EValueError
  end.

(** The expected types of validate_enveloped_data: a name of RecipientInfo, or KEMRI. *)
Inductive expected := Any | AKemri | AName (n : rname).

(** Models resources/ca_kga_logic.py 951-1044 (validate_enveloped_data). *)
Definition open_env (L : lib) (v : env) (g : given) (t : expected) (index size : nat) (raw : bool) : result bytes :=
  let general n :=
    let! _ := recip_at v size index n in
    let! cek := extract_cek L v g 0 size in
    open_content L (v_content v) cek raw in
  match t with
  | AName NPwri =>
      let! _ := guard (match i_pw g with Some _ => true | None => false end) EValueError in
      open_pwri L v (i_pw g) (i_msg g) (i_salt g) size index raw false
  | AKemri =>
      match i_key g with
      | Some k =>
          let! _ := guard (match s_kind k with KKem _ => true | _ => false end) EValueError in
          open_kemri L v k (i_cert g) size index (i_pop g) raw false
      | None => Err EValueError
      end
  | AName n => general (Some n)
  | Any => general None
  end.
