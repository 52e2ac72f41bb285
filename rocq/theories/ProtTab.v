(** Model of the algorithm tables and of the algorithm identifiers used to protect messages
    (resources/oidutils.py, resources/oid_mapping.py, resources/prepare_alg_ids.py, resources/suiteenums.py).
    An object identifier is modelled by the name of the constant the source binds it to: that different names stand
    for different dotted strings is trusted. The identifiers of the post-quantum and composite algorithms, which the
    source computes, are ["pq:"] or ["comp:"] followed by the algorithm's name. *)
From Coq Require Import String Ascii.
From Verif Require Import Prelude PyStr CompLoadModel.
Open Scope string_scope.
Open Scope Z_scope.
Local Notation length := List.length.

Definition oid := string.
(** A Python dictionary with string keys, in insertion order. *)
Definition table := list (string * string).
Fixpoint lookup {A} (k : string) (t : list (string * A)) : option A :=
  match t with
  | [] => None
  | (x, v) :: r => if String.eqb k x then Some v else lookup k r
  end.
(** [k in d]. *)
Definition has {A} (k : string) (t : list (string * A)) : bool := match lookup k t with Some _ => true | None => false end.
(** The first key with the value [v]. *)
Fixpoint rlookup (v : string) (t : table) : option string :=
  match t with
  | [] => None
  | (x, w) :: r => if String.eqb v w then Some x else rlookup v r
  end.

(** resources/oidutils.py 80-86 (AES_GMAC_NAME_2_OID). *)
Definition AES_GMAC_NAME_2_OID : table :=
  [("aes128_gmac", "id_aes128_GMAC"); ("aes192_gmac", "id_aes192_GMAC"); ("aes256_gmac", "id_aes256_GMAC");
   ("aes-gmac", "id_aes256_GMAC"); ("aes_gmac", "id_aes256_GMAC")].
(** resources/oidutils.py 87-91 (AES_GMAC_OID_2_NAME). *)
Definition AES_GMAC_OID_2_NAME : table :=
  [("id_aes128_GMAC", "aes128_gmac"); ("id_aes192_GMAC", "aes192_gmac"); ("id_aes256_GMAC", "aes256_gmac")].
(** resources/oidutils.py 92-97 (RSA_SHA2_OID_2_NAME). *)
Definition RSA_SHA2_OID_2_NAME : table :=
  [("sha224WithRSAEncryption", "rsa-sha224"); ("sha256WithRSAEncryption", "rsa-sha256");
   ("sha384WithRSAEncryption", "rsa-sha384"); ("sha512WithRSAEncryption", "rsa-sha512")].
(** resources/oidutils.py 98-105 (ECDSA_SHA_OID_2_NAME). *)
Definition ECDSA_SHA_OID_2_NAME : table :=
  [("ecdsa_with_SHA224", "ecdsa-sha224"); ("ecdsa_with_SHA256", "ecdsa-sha256");
   ("ecdsa_with_SHA384", "ecdsa-sha384"); ("ecdsa_with_SHA512", "ecdsa-sha512");
   ("id_ecdsa_with_shake128", "ecdsa-shake128"); ("id_ecdsa_with_shake256", "ecdsa-shake256")].
(** resources/oidutils.py 108-112 (RSASSA_PSS_OID_2_NAME). *)
Definition RSASSA_PSS_OID_2_NAME : table :=
  [("id_RSASSA_PSS", "rsassa_pss-sha256"); ("id_RSASSA_PSS_SHAKE128", "rsassa_pss-shake128");
   ("id_RSASSA_PSS_SHAKE256", "rsassa_pss-shake256")].
(** resources/oidutils.py 118-138 (HMAC_OID_2_NAME and the tables it is built from). *)
Definition HMAC_OID_2_NAME : table :=
  [("hMAC_SHA1", "hmac-sha1");
   ("id_hmacWithSHA224", "hmac-sha224"); ("id_hmacWithSHA256", "hmac-sha256");
   ("id_hmacWithSHA384", "hmac-sha384"); ("id_hmacWithSHA512", "hmac-sha512");
   ("id_hmacWithSHA3_224", "hmac-sha3_224"); ("id_hmacWithSHA3_256", "hmac-sha3_256");
   ("id_hmacWithSHA3_384", "hmac-sha3_384"); ("id_hmacWithSHA3_512", "hmac-sha3_512")].
(** resources/oidutils.py 142 (KMAC_OID_2_NAME). *)
Definition KMAC_OID_2_NAME : table :=
  [("id_KMACWithSHAKE128", "kmac-shake128"); ("id_KMACWithSHAKE256", "kmac-shake256")].
(** resources/oidutils.py 146-152 (SHA2_OID_2_NAME). *)
Definition SHA2_OID_2_NAME : table :=
  [("id_sha224", "sha224"); ("id_sha256", "sha256"); ("id_sha384", "sha384"); ("id_sha512", "sha512")].
(** resources/oidutils.py 155-158 (SHA_OID_2_NAME). *)
Definition SHA_OID_2_NAME : table := ("id_sha1", "sha1") :: SHA2_OID_2_NAME.
(** resources/oidutils.py 164-172 (SHA3_OID_2_NAME). *)
Definition SHA3_OID_2_NAME : table :=
  [("id_hash_algs.7", "sha3_224"); ("id_hash_algs.8", "sha3_256"); ("id_hash_algs.9", "sha3_384");
   ("id_hash_algs.10", "sha3_512"); ("id_hash_algs.11", "shake128"); ("id_hash_algs.12", "shake256")].
(** resources/oidutils.py 175-187 (ECDSA_SHA3_OID_2_NAME, RSA_SHA3_OID_2_NAME). *)
Definition ECDSA_SHA3_OID_2_NAME : table :=
  [("id_ecdsa_with_sha3_224", "ecdsa-sha3_224"); ("id_ecdsa_with_sha3_256", "ecdsa-sha3_256");
   ("id_ecdsa_with_sha3_384", "ecdsa-sha3_384"); ("id_ecdsa_with_sha3_512", "ecdsa-sha3_512")].
Definition RSA_SHA3_OID_2_NAME : table :=
  [("id_rsassa_pkcs1_v1_5_with_sha3_224", "rsa-sha3_224"); ("id_rsassa_pkcs1_v1_5_with_sha3_256", "rsa-sha3_256");
   ("id_rsassa_pkcs1_v1_5_with_sha3_384", "rsa-sha3_384"); ("id_rsassa_pkcs1_v1_5_with_sha3_512", "rsa-sha3_512")].
(** resources/oidutils.py 188-196 (RSA_OID_2_NAME, ECDSA_OID_2_NAME). *)
Definition RSA_OID_2_NAME : table :=
  (("sha1WithRSAEncryption", "rsa-sha1") :: RSA_SHA2_OID_2_NAME ++ RSA_SHA3_OID_2_NAME)%list.
Definition ECDSA_OID_2_NAME : table := (ECDSA_SHA_OID_2_NAME ++ ECDSA_SHA3_OID_2_NAME)%list.

(** resources/oidutils.py 553-564 (ML_DSA_OID_2_NAME, ML_DSA_PRE_HASH_OID_2_NAME). *)
Definition pq (n : string) : oid := "pq:" ++ n.
Definition ML_DSA_NAMES : list string := ["ml-dsa-44"; "ml-dsa-65"; "ml-dsa-87"].
Definition ML_DSA_PRE_HASH_NAMES : list string := ["ml-dsa-44-sha512"; "ml-dsa-65-sha512"; "ml-dsa-87-sha512"].
(** resources/oidutils.py 583-611 (SLH_DSA_NAME_2_OID, SLH_DSA_PRE_HASH_NAME_2_OID). *)
Definition SLH_DSA_NAMES : list string :=
  ["slh-dsa-sha2-128s"; "slh-dsa-sha2-128f"; "slh-dsa-sha2-192s"; "slh-dsa-sha2-192f"; "slh-dsa-sha2-256s";
   "slh-dsa-sha2-256f"; "slh-dsa-shake-128s"; "slh-dsa-shake-128f"; "slh-dsa-shake-192s"; "slh-dsa-shake-192f";
   "slh-dsa-shake-256s"; "slh-dsa-shake-256f"].
Definition SLH_DSA_PRE_HASH_NAMES : list string :=
  ["slh-dsa-sha2-128s-sha256"; "slh-dsa-sha2-128f-sha256"; "slh-dsa-sha2-192s-sha512"; "slh-dsa-sha2-192f-sha512";
   "slh-dsa-sha2-256s-sha512"; "slh-dsa-sha2-256f-sha512"; "slh-dsa-shake-128s-shake128";
   "slh-dsa-shake-128f-shake128"; "slh-dsa-shake-192s-shake256"; "slh-dsa-shake-192f-shake256";
   "slh-dsa-shake-256s-shake256"; "slh-dsa-shake-256f-shake256"].
(** pq_logic/tmp_oids.py 61-66 (FALCON_NAME_2_OID). *)
Definition FALCON_NAMES : list string := ["falcon-512"; "falcon-padded-512"; "falcon-1024"; "falcon-padded-1024"].
(** resources/oidutils.py 641-645 (PQ_STATEFUL_HASH_SIG_NAME_2_OID). *)
Definition PQ_STATEFUL_NAMES : list string := ["xmss"; "xmssmt"; "hss"].
(** resources/oidutils.py 523-538 and 720-724, pq_logic/tmp_oids.py 76-93: the names of the key encapsulation
    mechanisms (PQ_KEM_NAME_2_OID). *)
Definition PQ_KEM_NAMES : list string :=
  ["ml-kem-512"; "ml-kem-768"; "ml-kem-1024"; "sntrup761"; "mceliece-348864"; "mceliece-460896"; "mceliece-6688128";
   "mceliece-6960119"; "mceliece-8192128"; "frodokem-640-aes"; "frodokem-640-shake"; "frodokem-976-aes";
   "frodokem-976-shake"; "frodokem-1344-aes"; "frodokem-1344-shake"].
Definition by_oid (l : list string) : table := List.map (fun n => (pq n, n)) l.
(** resources/oidutils.py 650-655 (PQ_SIG_OID_2_NAME), 726-728 (PQ_SIG_PRE_HASH_OID_2_NAME), 647
    (PQ_STATEFUL_HASH_SIG_OID_2_NAME), 732-735 (PQ_OID_2_NAME). *)
Definition PQ_SIG_NAMES : list string :=
  (ML_DSA_NAMES ++ ML_DSA_PRE_HASH_NAMES ++ SLH_DSA_NAMES ++ SLH_DSA_PRE_HASH_NAMES ++ FALCON_NAMES)%list.
Definition PQ_SIG_OID_2_NAME : table := by_oid PQ_SIG_NAMES.
Definition PQ_SIG_PRE_HASH_OID_2_NAME : table := by_oid (ML_DSA_PRE_HASH_NAMES ++ SLH_DSA_PRE_HASH_NAMES)%list.
Definition PQ_STATEFUL_OID_2_NAME : table := by_oid PQ_STATEFUL_NAMES.
Definition PQ_NAMES : list string := (PQ_SIG_NAMES ++ PQ_KEM_NAMES ++ PQ_STATEFUL_NAMES)%list.
Definition PQ_OID_2_NAME : table := by_oid PQ_NAMES.

(** pq_logic/tmp_oids.py 193-212 (COMPOSITE_SIG_PREHASH_OID_2_HASH), the keys in the order of 127-148
    (COMPOSITE_SIG_NAME_TO_OID): name and hash. *)
Definition COMPOSITE_SIG_HASH : table :=
  [("composite-sig-ml-dsa-44-rsa2048-pss", "sha256"); ("composite-sig-ml-dsa-44-rsa2048", "sha256");
   ("composite-sig-ml-dsa-44-ed25519", "sha512"); ("composite-sig-ml-dsa-44-ecdsa-secp256r1", "sha256");
   ("composite-sig-ml-dsa-65-rsa3072-pss", "sha512"); ("composite-sig-ml-dsa-65-rsa3072", "sha512");
   ("composite-sig-ml-dsa-65-rsa4096-pss", "sha512"); ("composite-sig-ml-dsa-65-rsa4096", "sha512");
   ("composite-sig-ml-dsa-65-ecdsa-secp256r1", "sha512"); ("composite-sig-ml-dsa-65-ecdsa-secp384r1", "sha512");
   ("composite-sig-ml-dsa-65-ecdsa-brainpoolP256r1", "sha512"); ("composite-sig-ml-dsa-65-ed25519", "sha512");
   ("composite-sig-ml-dsa-87-ecdsa-secp384r1", "sha512"); ("composite-sig-ml-dsa-87-ecdsa-brainpoolP384r1", "sha512");
   ("composite-sig-ml-dsa-87-ed448", "shake256"); ("composite-sig-ml-dsa-87-rsa3072-pss", "sha512");
   ("composite-sig-ml-dsa-87-rsa4096-pss", "sha512"); ("composite-sig-ml-dsa-87-ecdsa-secp521r1", "sha512")].
Definition comp (n : string) : oid := "comp:" ++ n.
Definition COMPOSITE_SIG_OID_TO_NAME : table := List.map (fun p => (comp (fst p), fst p)) COMPOSITE_SIG_HASH.
Definition COMPOSITE_SIG_PREHASH_OID_2_HASH : table := List.map (fun p => (comp (fst p), snd p)) COMPOSITE_SIG_HASH.

(** resources/oidutils.py 219-226 and 679 (OID_HASH_MAP). *)
Definition OID_HASH_MAP : table :=
  (RSA_OID_2_NAME ++ RSASSA_PSS_OID_2_NAME ++ ECDSA_SHA_OID_2_NAME ++ ECDSA_SHA3_OID_2_NAME ++ HMAC_OID_2_NAME
   ++ SHA_OID_2_NAME ++ SHA3_OID_2_NAME ++ by_oid (ML_DSA_NAMES ++ ML_DSA_PRE_HASH_NAMES))%list.
(** resources/oidutils.py 232-235 (MSG_SIG_ALG), 238-241 (TRAD_SIG_OID_2_NAME). *)
Definition MSG_SIG_ALG : table :=
  ([("id_Ed25519", "ed25519"); ("id_Ed448", "ed448")] ++ RSA_SHA2_OID_2_NAME ++ RSASSA_PSS_OID_2_NAME
   ++ ECDSA_SHA_OID_2_NAME)%list.
Definition TRAD_SIG_OID_2_NAME : table := (MSG_SIG_ALG ++ RSA_OID_2_NAME ++ ECDSA_OID_2_NAME)%list.
(** resources/oidutils.py 247 (LWCMP_MAC_OID_2_NAME); the constants of rfc4210, rfc9480, rfc9481 and of rfc8018,
    rfc9481 are the same two identifiers. *)
Definition LWCMP_MAC_OID_2_NAME : table := [("id_PasswordBasedMac", "password_based_mac"); ("id_PBMAC1", "pbmac1")].
(** resources/oidutils.py 251-262 (SYMMETRIC_PROT_ALGO). *)
Definition SYMMETRIC_PROT_ALGO : table :=
  ([("id_DHBasedMac", "dh_based_mac"); ("id_KemBasedMac", "kem_based_mac")] ++ LWCMP_MAC_OID_2_NAME
   ++ HMAC_OID_2_NAME ++ AES_GMAC_OID_2_NAME ++ KMAC_OID_2_NAME)%list.
(** resources/oidutils.py 294-306 (ALLOWED_HASH_TYPES) with the digest sizes of the instances. *)
Definition ALLOWED_HASH_TYPES : list (string * Z) :=
  [("sha1", 20); ("sha224", 28); ("sha256", 32); ("sha384", 48); ("sha512", 64); ("shake128", 32); ("shake256", 64);
   ("sha3_224", 28); ("sha3_256", 32); ("sha3_384", 48); ("sha3_512", 64)].
(** resources/oidutils.py 479-490 (HKDF_NAME_2_OID, HKDF_OID_2_NAME). *)
Definition HKDF_OID_2_NAME : table :=
  [("id_alg_hkdf_with_sha256", "hkdf-sha256"); ("id_alg_hkdf_with_sha384", "hkdf-sha384");
   ("id_alg_hkdf_with_sha512", "hkdf-sha512"); ("id_alg.32", "hkdf-sha3-224"); ("id_alg.33", "hkdf-sha3-256");
   ("id_alg.34", "hkdf-sha3-384"); ("id_alg.35", "hkdf-sha3-512")].

(** ** Names *)

(** [s.split("-")[1]]. *)
Definition part1 (s : string) : result string :=
  match split "-"%char s with _ :: x :: _ => Ok x | _ => Err EIndexError end.
(** [s.split("-")[-1]]. *)
Definition last_part (s : string) : string := List.last (split "-"%char s) "".

(** Models resources/oid_mapping.py 106-121 (sha_alg_name_to_oid). *)
Definition sha_alg_name_to_oid (name : string) : result oid :=
  match rlookup (strip is_space (lower name)) OID_HASH_MAP with
  | Some o => Ok o
  | None => Err EValueError
  end.

(** Models resources/oid_mapping.py 138-168 (get_hash_from_oid). A bare hash identifier has no second part: with
    [only_hash] the list index fails and the IndexError is not translated. *)
Definition get_hash_from_oid (o : oid) (only_hash : bool) : result (option string) :=
  if str_mem o ["id_Ed25519"; "id_Ed448"] then Ok None
  else match lookup o COMPOSITE_SIG_PREHASH_OID_2_HASH with
       | Some h => Ok (Some h)
       | None =>
           match lookup o PQ_SIG_PRE_HASH_OID_2_NAME with
           | Some n => Ok (Some (last_part n))
           | None =>
               if has o PQ_OID_2_NAME then Ok None
               else match lookup o OID_HASH_MAP with
                    | None => Err EValueError
                    | Some n => if only_hash then let! p := part1 n in Ok (Some p) else Ok (Some n)
                    end
           end
       end.

(** Models resources/oid_mapping.py 171-186 (hash_name_to_instance): the instance is named by its key in
    ALLOWED_HASH_TYPES. *)
Definition hash_name_to_instance (alg : string) : result string :=
  let! n := (if has_char "-"%char alg then part1 alg else Ok alg) in
  let! _ := guard (has n ALLOWED_HASH_TYPES) EValueError in
  Ok n.
(** [instance.digest_size] and [instance.name.lower()]. *)
Definition digest_size (h : string) : Z := match lookup h ALLOWED_HASH_TYPES with Some n => n | None => 0 end.
Definition instance_name (h : string) : string :=
  match lookup h [("sha3_224", "sha3-224"); ("sha3_256", "sha3-256"); ("sha3_384", "sha3-384"); ("sha3_512", "sha3-512")]
  with Some n => n | None => h end.

(** ** Algorithm identifiers *)

(** An AlgorithmIdentifier and its [parameters]: absent, undecoded DER (an Any), or the structure the caller put
    there. [PAlg] is an AlgorithmIdentifier used as parameters, [PCt] a KemCiphertextInfo. *)
Inductive algid := Alg (o : oid) (p : params)
with params :=
| PAbsent
| PRaw (b : bytes)
| PNull
| POctets (b : bytes)
| PPbmac1 (kdf mac : algid)
| PPbkdf2 (salt : psalt) (iterations : Z) (keylen : option Z) (prf : algid)
| PPbm (salt : bytes) (owf : algid) (iterations : Z) (mac : algid)
| PGcm (nonce : bytes)
| PDhbm (owf mac : algid)
| PKem (kdf : algid) (ctx : option bytes) (len : Z) (mac : algid)
| PPss (hash mgf : algid) (salt : Z)
| PAlg (a : algid)
| PCt (kem : algid) (ct : bytes)
with psalt := SaltSpec (b : bytes) | SaltOther (a : algid).

Definition a_oid (a : algid) : oid := let (o, _) := a in o.
Definition a_params (a : algid) : params := let (_, p) := a in p.
Definition is_absent (p : params) : bool := match p with PAbsent => true | _ => false end.

(** What pyasn1 refuses when a structure is filled in: iteration counts and key lengths below one in PBKDF2-params
    (RFC 8018, INTEGER (1..MAX)), a PBMParameter salt above 128 bytes (prepare_alg_ids.py 372), a KemBMParameter
    length below one (547). *)
Definition constraints_ok (p : params) : bool :=
  match p with
  | PPbkdf2 _ i k _ => (1 <=? i) && match k with Some n => 1 <=? n | None => true end
  | PPbm s _ _ _ => Z.of_nat (length s) <=? 128
  | PKem _ _ n _ => 1 <=? n
  | _ => true
  end.
Definition checked (p : params) : result params := let! _ := guard (constraints_ok p) EPyAsn1 in Ok p.

(** [x or y] on bytes. *)
Definition or_bytes (x y : bytes) : bytes := match x with [] => y | _ => x end.

(** Models resources/prepare_alg_ids.py 314-333 (prepare_sha_alg_id) without a random parameters value: the encoding
    of NULL. *)
Definition prepare_sha_alg_id (h : string) : result algid :=
  let! o := sha_alg_name_to_oid h in Ok (Alg o (PRaw [5; 0])).
(** Models resources/prepare_alg_ids.py 341-354 (prepare_hmac_alg_id). *)
Definition prepare_hmac_alg_id (h : string) : result algid :=
  let! o := sha_alg_name_to_oid ("hmac-" ++ h) in Ok (Alg o PAbsent).
(** Models resources/prepare_alg_ids.py 131-154 (prepare_pbkdf2_alg_id). *)
Definition prepare_pbkdf2_alg_id (salt : bytes) (iterations keylen : Z) (h : string) : result algid :=
  let! prf := prepare_hmac_alg_id h in
  let! p := checked (PPbkdf2 (SaltSpec salt) iterations (Some keylen) prf) in
  Ok (Alg "id_PBKDF2" p).
(** Models resources/prepare_alg_ids.py 358-378 (prepare_password_based_mac_parameters). [rnd n] is os.urandom(n). *)
Definition prepare_password_based_mac_parameters (rnd : Z -> bytes) (salt : bytes) (iterations : Z) (h : string)
  : result params :=
  let! owf := prepare_sha_alg_id h in
  let! mac := prepare_hmac_alg_id h in
  checked (PPbm (or_bytes salt (rnd 16)) owf iterations mac).
(** Models resources/prepare_alg_ids.py 382-396 (prepare_kmac_alg_id). *)
Definition prepare_kmac_alg_id (h : string) : result algid :=
  if String.eqb h "shake128" then Ok (Alg "id_KMACWithSHAKE128" PAbsent)
  else if String.eqb h "shake256" then Ok (Alg "id_KMACWithSHAKE256" PAbsent)
  else Err EValueError.
(** Models resources/prepare_alg_ids.py 400-416 (prepare_aes_gmac_prot_alg_id). *)
Definition prepare_aes_gmac_prot_alg_id (rnd : Z -> bytes) (protection : string) (nonce : bytes) : result algid :=
  match lookup protection AES_GMAC_NAME_2_OID with
  | Some o => Ok (Alg o (PGcm (or_bytes nonce (rnd 12))))
  | None => Err EKeyError
  end.
(** Models resources/prepare_alg_ids.py 420-442 (prepare_pbmac1_parameters). *)
Definition prepare_pbmac1_parameters (rnd : Z -> bytes) (salt : bytes) (iterations len : Z) (h : string)
  : result params :=
  let! kdf := prepare_pbkdf2_alg_id (or_bytes salt (rnd 16)) iterations len h in
  let! mac := prepare_hmac_alg_id h in
  Ok (PPbmac1 kdf mac).
(** Models resources/prepare_alg_ids.py 446-480 (prepare_dh_based_mac_params). *)
Definition prepare_dh_based_mac_params (rnd : Z -> bytes) (h mac_alg : string) (nonce : bytes) : result params :=
  let! owf := prepare_sha_alg_id h in
  let! mac :=
    (if String.eqb mac_alg "hmac" then prepare_hmac_alg_id h
     else if startswith "hmac" mac_alg then let! n := part1 mac_alg in prepare_hmac_alg_id n
     else if startswith "aes" mac_alg then prepare_aes_gmac_prot_alg_id rnd mac_alg nonce
     else if String.eqb mac_alg "kmac" then prepare_kmac_alg_id "shake256"
     else if startswith "kmac" mac_alg then let! n := part1 mac_alg in prepare_kmac_alg_id n
     else Err EValueError) in
  Ok (PDhbm owf mac).
(** Models resources/prepare_alg_ids.py 157-170 (_prepare_hkdf), 173-198 (_prepare_ansi_x9_kdf) and 201-255
    (prepare_kdf_alg_id) without random parameters; [salt] is given for PBKDF2. *)
Definition prepare_kdf_alg_id (rnd : Z -> bytes) (name : string) (salt : option bytes) (iterations len : Z) (h : string)
  : result algid :=
  if String.eqb name "hkdf"
  then match rlookup (name ++ "-" ++ h) HKDF_OID_2_NAME with
       | Some o => Ok (Alg o PAbsent)
       | None => Err EKeyError
       end
  else if startswith "kdf" name
  then let! o := sha_alg_name_to_oid h in
       Ok (Alg (if String.eqb name "kdf2" then "id_kdf_kdf2" else "id_kdf_kdf3") (PAlg (Alg o PAbsent)))
  else if startswith "pbkdf2" name
  then prepare_pbkdf2_alg_id (match salt with Some s => s | None => rnd 32 end) iterations len h
  else Err EValueError.
(** Models resources/prepare_alg_ids.py 505-551 (_prepare_kem_based_mac_params). *)
Definition prepare_kem_based_mac_params (rnd : Z -> bytes) (ctx : option bytes) (kdf : string) (salt : option bytes)
    (iterations len : Z) (h : string) : result params :=
  let! kdf_alg :=
    (if String.eqb kdf "pbkdf2"
     then prepare_pbkdf2_alg_id (or_bytes (match salt with Some s => s | None => [] end) (rnd 16)) iterations len h
     else prepare_kdf_alg_id rnd kdf None 100000 32 h) in
  let! o := sha_alg_name_to_oid ("hmac-" ++ h) in
  checked (PKem kdf_alg ctx len (Alg o PAbsent)).
(** Models resources/prepare_alg_ids.py 555-582 (prepare_kem_based_mac_alg_id). *)
Definition prepare_kem_based_mac_alg_id (rnd : Z -> bytes) (ctx : option bytes) (kdf : string) (salt : option bytes)
    (iterations len : Z) (h : string) : result algid :=
  let! p := prepare_kem_based_mac_params rnd ctx kdf salt iterations len h in Ok (Alg "id_KemBasedMac" p).
(** Models resources/prepare_alg_ids.py 637-689 (prepare_rsa_pss_alg_id); [add] is add_params_rand_val. *)
Definition prepare_rsa_pss_alg_id (rnd : Z -> bytes) (h : string) (salt_length : option Z) (add : bool) : result algid :=
  if str_mem h ["shake128"; "shake256"]
  then Ok (Alg (if String.eqb h "shake128" then "id_RSASSA_PSS_SHAKE128" else "id_RSASSA_PSS_SHAKE256")
               (if add then POctets (rnd 16) else PAbsent))
  else
    let! o := sha_alg_name_to_oid h in
    let! inst := hash_name_to_instance h in
    let ha := Alg o (if add then POctets (rnd 16) else PRaw [5; 0]) in
    let n := match salt_length with Some s => if s =? 0 then digest_size inst else s | None => digest_size inst end in
    Ok (Alg "id_RSASSA_PSS" (PPss ha (Alg "id_mgf1" (PAlg ha)) n)).

(** ** Protection names *)

(** [s.replace("-", "_")]. *)
Fixpoint dash_to_under (s : string) : string :=
  match s with
  | EmptyString => EmptyString
  | String c r => String (if Ascii.eqb c "-"%char then "_"%char else c) (dash_to_under r)
  end.
(** resources/suiteenums.py 32-42 (ProtectionAlgorithm). *)
Inductive protalg := PA_HMAC | PA_PBMAC1 | PA_PBM | PA_GMAC | PA_SIGNATURE | PA_DH | PA_PSS | PA_KMAC.
Definition PROTECTION_NAMES : list (string * protalg) :=
  [("HMAC", PA_HMAC); ("PBMAC1", PA_PBMAC1); ("PASSWORD_BASED_MAC", PA_PBM); ("AES_GMAC", PA_GMAC);
   ("SIGNATURE", PA_SIGNATURE); ("DH", PA_DH); ("RSASSA_PSS", PA_PSS); ("KMAC", PA_KMAC)].
(** Models resources/suiteenums.py 49-76 (ProtectionAlgorithm.get). *)
Definition protection_get (v : string) : result protalg :=
  if has v AES_GMAC_NAME_2_OID then Ok PA_GMAC
  else match lookup (upper (dash_to_under v)) PROTECTION_NAMES with
       | Some p => Ok p
       | None => Err EValueError
       end.
(** resources/suiteenums.py 201-210 (ProtectedType) and 212-249 (get_protection_type) on an identifier. *)
Inductive ptype := T_SIG | T_KEM | T_DH | T_MAC | T_PQ | T_COMP | T_STATEFUL.
Definition ptype_value (t : ptype) : string :=
  match t with
  | T_SIG => "sig" | T_KEM => "kem_based_mac" | T_DH => "dh_based_mac" | T_MAC => "mac" | T_PQ => "pq-sig"
  | T_COMP => "composite-sig" | T_STATEFUL => "pq-hash-stateful-sig"
  end.
Definition get_protection_type (o : oid) : result ptype :=
  if String.eqb o "id_KemBasedMac" then Ok T_KEM
  else if String.eqb o "id_DHBasedMac" then Ok T_DH
  else if has o SYMMETRIC_PROT_ALGO then Ok T_MAC
  else if has o TRAD_SIG_OID_2_NAME then Ok T_SIG
  else if has o PQ_STATEFUL_OID_2_NAME then Ok T_STATEFUL
  else if has o PQ_SIG_OID_2_NAME then Ok T_PQ
  else if has o COMPOSITE_SIG_OID_TO_NAME then Ok T_COMP
  else Err EUnknownOID.
