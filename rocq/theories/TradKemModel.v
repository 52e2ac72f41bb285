(** Model of the traditional key encapsulation mechanisms: ECDH-KEM, DHKEM of RFC 9180, RSA-KEM with KDF3 and
    RSA-OAEP (pq_logic/kem_mechanism.py and the wrapper keys in pq_logic/keys/trad_kem_keys.py).

    Simplifications.  A key of the cryptography library is its curve with an opaque byte string: for a private key
    the scalar, for a public key the encoding that public_bytes returns (uncompressed point, or the raw bytes of
    x25519 and x448).  Random values are arguments. *)
From Coq Require Import String.
From Verif Require Import Prelude CompSigModel.
Open Scope Z_scope.

Inductive curve := P256 | P384 | P521 | BP256 | BP384 | BP512 | X25519 | X448.
Scheme Equality for curve.

(** isinstance(key, ec.EllipticCurve...Key) *)
Definition is_ec (c : curve) : bool := match c with X25519 | X448 => false | _ => true end.

(** The names of the curve objects of the cryptography library. *)
Definition curve_name (c : curve) : string :=
  match c with
  | P256 => "secp256r1" | P384 => "secp384r1" | P521 => "secp521r1"
  | BP256 => "brainpoolP256r1" | BP384 => "brainpoolP384r1" | BP512 => "brainpoolP512r1"
  | X25519 => "x25519" | X448 => "x448"
  end.
(** curve.key_size, in bits. *)
Definition curve_bits (c : curve) : nat :=
  match c with P256 | BP256 => 256 | P384 | BP384 => 384 | P521 => 521 | BP512 => 512 | X25519 => 256 | X448 => 448 end.

(** The cryptography library.  [t_pub]: public key of a private key.  [t_exchange]: Diffie-Hellman with a public key of
    the same curve (ValueError for the all-zero secret of x25519 and x448).  [t_point]: from_encoded_point, the
    uncompressed form of the point read; [None] is ValueError.  [t_oaep_enc pub seed msg] and [t_oaep_dec]: RSA-OAEP with
    SHA-256 and MGF1 of SHA-256. *)
Record lib := {
  t_pub : curve -> bytes -> bytes;
  t_exchange : curve -> bytes -> bytes -> result bytes;
  t_point : curve -> bytes -> option bytes;
  t_hash : hash -> bytes -> bytes;
  t_extract : hash -> bytes -> bytes -> bytes;           (* HKDF-Extract salt ikm *)
  t_expand : hash -> bytes -> bytes -> nat -> bytes;     (* HKDF-Expand prk info length *)
  t_rsa_pub : bytes -> bytes;
  t_rsa_bits : bytes -> N;                               (* key_size of a public key *)
  t_rsa_der : bytes -> bytes;                            (* PKCS#1 form of a public key *)
  t_oaep_enc : bytes -> bytes -> bytes -> result bytes;
  t_oaep_dec : bytes -> bytes -> result bytes
}.

(** int.to_bytes(size, "big"): OverflowError when the value does not fit. *)
Definition be (size : nat) (v : Z) : bytes :=
  map (fun i => v / 256 ^ Z.of_nat (size - 1 - i) mod 256) (seq 0 size).
Definition to_bytes (size : nat) (v : Z) : result bytes :=
  let! _ := guard ((0 <=? v) && (v <? 256 ^ Z.of_nat size)) EOverflow in Ok (be size v).
(** int.from_bytes(b, "big") *)
Definition from_bytes (b : bytes) : Z := fold_left (fun acc x => acc * 256 + x) b 0.

(** pq_logic/kem_mechanism.py 188-199 (_i2osp): its own length check can not fail. *)
Definition i2osp (num : Z) (size : nat) : result bytes := to_bytes size num.

Section Lib.
Variable L : lib.

(** ** ECDH-KEM *)
(** pq_logic/kem_mechanism.py 23-46 (_perform_ecdh): keys on different curves, or of different classes, end in ValueError. *)
Definition perform_ecdh (c : curve) (d : bytes) (c' : curve) (q : bytes) : result bytes :=
  if curve_beq c c' then t_exchange L c d q else Err EValueError.

(** Reading the bytes of a public key of curve [c]: from_encoded_point, or from_public_bytes with its length check. *)
Definition read_pub (c : curve) (b : bytes) : result bytes :=
  match c with
  | X25519 => if (length b =? 32)%nat then Ok b else Err EValueError
  | X448 => if (length b =? 56)%nat then Ok b else Err EValueError
  | _ => match t_point L c b with Some q => Ok q | None => Err EValueError end
  end.

(** pq_logic/kem_mechanism.py 110-121 (ECDHKEM.encaps); [eph]: the private key of the instance, or the generated one. *)
Definition ecdh_encaps (eph : curve * bytes) (c : curve) (q : bytes) : result (bytes * bytes) :=
  let (ce, de) := eph in
  let! ss := perform_ecdh ce de c q in
  Ok (ss, t_pub L ce de).
(** pq_logic/kem_mechanism.py 123-130 (ECDHKEM.decaps) and
    pq_logic/kem_mechanism.py 132-151 (ECDHKEM._exchange_from_bytes) *)
Definition ecdh_decaps (c : curve) (d : bytes) (ct : bytes) : result bytes :=
  let! q := read_pub c ct in
  perform_ecdh c d c q.

(** ** DHKEM, RFC 9180 *)
(** pq_logic/kem_mechanism.py 154-163 (KEY_TYPE_TO_ID) and
    pq_logic/kem_mechanism.py 174-185 (_get_key_id) *)
Definition key_id (c : curve) : Z :=
  match c with
  | P256 => 16 | BP256 => 16 | P384 => 17 | BP384 => 17 | P521 => 18 | BP512 => 18 | X25519 => 32 | X448 => 33
  end.
(** pq_logic/kem_mechanism.py 165-171 (ID_TO_SHA); KeyError for other values. *)
Definition id_to_sha (i : Z) : result hash :=
  if i =? 16 then Ok Sha256 else if i =? 32 then Ok Sha256 else if i =? 17 then Ok Sha384
  else if i =? 18 then Ok Sha512 else if i =? 33 then Ok Sha512 else Err EKeyError.
(** digest_size *)
Definition digest_size (h : hash) : nat := match h with Sha256 => 32 | Sha384 => 48 | Sha512 => 64 | Shake256 => 32 end.

(** pq_logic/kem_mechanism.py 234-253 (DHKEMRFC9180._extract_and_expand); HKDF.derive is extract and then expand. *)
Definition extract_and_expand (h : hash) (dh kem_context : bytes) (cipher_id : Z) : result bytes :=
  let context := lit "HPKE-v1" in
  let! i := i2osp cipher_id 2 in
  let suite_id := lit "KEM" ++ i in
  let labeled_ikm := context ++ suite_id ++ lit "eae_prk" ++ dh in
  let! length_bytes := i2osp (Z.of_nat (digest_size h)) 2 in
  let labeled_info := length_bytes ++ context ++ suite_id ++ lit "shared_secret" ++ kem_context in
  Ok (t_expand L h (t_extract L h [] labeled_ikm) labeled_info (digest_size h)).

(** pq_logic/kem_mechanism.py 274-287 (DHKEMRFC9180._perform_exchange): TypeError when the classes differ, ValueError
    (of the library) for different curves. *)
Definition perform_exchange (c : curve) (d : bytes) (c' : curve) (q : bytes) : result bytes :=
  if curve_beq c c' then t_exchange L c d q
  else if is_ec c && is_ec c' then Err EValueError else Err ETypeError.

(** pq_logic/kem_mechanism.py 255-272 (DHKEMRFC9180.encaps) *)
Definition dhkem_encaps (eph : curve * bytes) (c : curve) (q : bytes) : result (bytes * bytes) :=
  let (ce, de) := eph in
  let! shared_tmp := perform_exchange ce de c q in
  let enc := t_pub L ce de in
  let! h := id_to_sha (key_id ce) in
  let! ss := extract_and_expand h shared_tmp (enc ++ q) (key_id ce) in
  Ok (ss, enc).
(** pq_logic/kem_mechanism.py 306-320 (DHKEMRFC9180.decaps) and
    pq_logic/kem_mechanism.py 289-304 (DHKEMRFC9180._exchange_from_bytes) *)
Definition dhkem_decaps (c : curve) (d : bytes) (enc : bytes) : result bytes :=
  let! q := read_pub c enc in
  let! shared_tmp := perform_exchange c d c q in
  let! h := id_to_sha (key_id c) in
  extract_and_expand h shared_tmp (enc ++ t_pub L c d) (key_id c).

(** ** RSA-KEM *)
(** pq_logic/kem_mechanism.py 49-67 (_compute_kdf3): the loop runs at most [key_length] times, since every round adds the
    digest; [fuel] bounds it. *)
Fixpoint kdf3_loop (fuel : nat) (z : bytes) (key_length : Z) (counter : Z) (acc : bytes) : result bytes :=
  if Z.of_nat (length acc) <? key_length then
    match fuel with
    | O => Err ERuntimeError
    | S f =>
        let! cb := to_bytes 4 counter in
        kdf3_loop f z key_length (counter + 1) (acc ++ t_hash L Sha256 (cb ++ z))
    end
  else Ok acc.
(** keying_material[:key_length]: a negative bound counts from the end, and the loop has not run then. *)
Definition compute_kdf3 (z : bytes) (key_length : Z) : result bytes :=
  let! km := kdf3_loop (Z.to_nat key_length) z key_length 1 [] in
  Ok (firstn (Z.to_nat key_length) km).

(** Python's pow(b, e, n) for n > 0 and e >= 0. *)
Definition pow_mod (b e n : Z) : Z := (b ^ e) mod n.
(** (n.bit_length() + 7) // 8 *)
Definition byte_len (n : Z) : nat := Z.to_nat ((Z.log2 n + 1 + 7) / 8).

(** pq_logic/kem_mechanism.py 342-359 (RSAKem.encaps); [rand] is the given value, or the random one when it is None or 0. *)
Definition rsakem_encaps (len : option Z) (e n : Z) (rand : Z) : result (bytes * bytes) :=
  let n_len := byte_len n in
  let! ct := i2osp (pow_mod rand e n) n_len in
  let! z_bytes := i2osp rand n_len in
  match len with
  | None => Ok (z_bytes, ct)
  | Some l => let! ss := compute_kdf3 z_bytes l in Ok (ss, ct)
  end.
(** pq_logic/kem_mechanism.py 361-389 (RSAKem.decaps) *)
Definition rsakem_decaps (len : option Z) (d n : Z) (ct : bytes) : result bytes :=
  let n_len := byte_len n in
  let! _ := guard (length ct =? n_len)%nat EValueError in
  let c := from_bytes ct in
  let! _ := guard (c <? n) EValueError in
  let z := pow_mod c d n in
  let! z_bytes := i2osp z n_len in
  match len with
  | None => Ok z_bytes
  | Some l => compute_kdf3 z_bytes l
  end.

(** ** Wrapper keys *)
(** DHKEMPublicKey/RSAEncapKey and DHKEMPrivateKey/RSADecapKey; [rfc] is use_rfc9180. *)
Inductive tpub := PDh (rfc : bool) (c : curve) (q : bytes) | PRsa (k : bytes).
Inductive tpriv := SDh (rfc : bool) (c : curve) (d : bytes) | SRsa (k : bytes).

(** public_key(): pq_logic/keys/trad_kem_keys.py 478-483 (DHKEMPrivateKey.public_key),
    pq_logic/keys/trad_kem_keys.py 197-202 (RSADecapKey.public_key) *)
Definition trad_public (k : tpriv) : tpub :=
  match k with SDh rfc c d => PDh rfc c (t_pub L c d) | SRsa k => PRsa (t_rsa_pub L k) end.
(** encode(): pq_logic/keys/trad_kem_keys.py 370-375 (DHKEMPublicKey.encode),
    pq_logic/keys/trad_kem_keys.py 116-118 (RSAEncapKey.encode) *)
Definition trad_encode (k : tpub) : bytes := match k with PDh _ _ q => q | PRsa k => t_rsa_der L k end.
(** get_trad_name: pq_logic/keys/trad_kem_keys.py 331-339 (DHKEMPublicKey.get_trad_name),
    pq_logic/keys/trad_kem_keys.py 107-109 (RSAEncapKey.get_trad_name) *)
Definition trad_name (k : tpub) : string :=
  match k with
  | PDh _ c _ => if is_ec c then "ecdh-" ++ curve_name c else curve_name c
  | PRsa k => "rsa" ++ dec (t_rsa_bits L k)
  end.
(** ct_length: pq_logic/keys/trad_kem_keys.py 313-323 (DHKEMPublicKey.key_size) *)
Definition dh_ct_length (c : curve) : nat :=
  match c with X25519 => 32 | X448 => 56 | _ => curve_bits c / 8 + 1 end.

(** Randomness of an encapsulation: the generated ephemeral key (of the curve of the public key), the secret and the
    seed of RSA-OAEP. *)
Record rnd := { r_eph : bytes; r_ss : bytes; r_seed : bytes }.

(** pq_logic/keys/trad_kem_keys.py 295-305 (DHKEMPublicKey.encaps) and
    pq_logic/keys/trad_kem_keys.py 74-91 (RSAEncapKey.encaps) with OAEP and SHA-256, as the hybrid keys call it:
    pq_logic/kem_mechanism.py 404-414 (RSAOaepKem.encaps).  [priv]: the private key given by the caller. *)
Definition trad_encaps (k : tpub) (priv : option (curve * bytes)) (r : rnd) : result (bytes * bytes) :=
  match k with
  | PDh rfc c q =>
      let eph := match priv with Some p => p | None => (c, r_eph r) end in
      if rfc then dhkem_encaps eph c q else ecdh_encaps eph c q
  | PRsa k =>
      let! ct := t_oaep_enc L k (r_seed r) (r_ss r) in
      Ok (r_ss r, ct)
  end.
(** pq_logic/keys/trad_kem_keys.py 485-496 (DHKEMPrivateKey.decaps),
    pq_logic/keys/trad_kem_keys.py 204-220 (RSADecapKey.decaps) with its default arguments *)
Definition trad_decaps (k : tpriv) (ct : bytes) : result bytes :=
  match k with
  | SDh rfc c d => if rfc then dhkem_decaps c d ct else ecdh_decaps c d ct
  | SRsa k => t_oaep_dec L k ct
  end.
End Lib.
