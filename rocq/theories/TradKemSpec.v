(** What RFC 9180 (DHKEM), RFC 9690 (RSA-KEM with KDF3) and the users of ECDH-KEM expect, written without the functions of
    TradKemModel.v: only its data types, the record of library functions and the literal notation are used. *)
From Coq Require Import String Znumtheory.
From Verif Require Import Prelude CompSigModel TradKemModel.
Open Scope Z_scope.

(** What is assumed of the cryptography library: Diffie-Hellman is symmetric, the encoding of a public key can be read
    back, and has the standard length; RSA-OAEP decrypts what was encrypted. *)
Record good_lib (L : lib) : Prop := {
  g_dh : forall c a b, t_exchange L c a (t_pub L c b) = t_exchange L c b (t_pub L c a);
  g_point : forall c d, t_point L c (t_pub L c d) = Some (t_pub L c d);
  g_x25519 : forall d, List.length (t_pub L X25519 d) = 32%nat;
  g_x448 : forall d, List.length (t_pub L X448 d) = 56%nat;
  g_oaep : forall k s m ct, t_oaep_enc L (t_rsa_pub L k) s m = Ok ct -> t_oaep_dec L k ct = Ok m
}.

(** RFC 9180, Table 2: kem_id, hash function of the KDF, Nsecret. *)
Definition rfc9180_kem (c : curve) : option (Z * hash * nat) :=
  match c with
  | P256 => Some (16, Sha256, 32%nat) | P384 => Some (17, Sha384, 48%nat) | P521 => Some (18, Sha512, 64%nat)
  | X25519 => Some (32, Sha256, 32%nat) | X448 => Some (33, Sha512, 64%nat)
  | BP256 | BP384 | BP512 => None
  end.
(** RFC 9180, section 4: LabeledExtract and LabeledExpand; I2OSP(v, 2). *)
Definition i2osp2 (v : Z) : bytes := [v / 256; v mod 256].
Definition labeled_extract (L : lib) (h : hash) (suite_id salt label ikm : bytes) : bytes :=
  t_extract L h salt (lit "HPKE-v1" ++ suite_id ++ label ++ ikm).
Definition labeled_expand (L : lib) (h : hash) (suite_id prk label info : bytes) (n : nat) : bytes :=
  t_expand L h prk (i2osp2 (Z.of_nat n) ++ lit "HPKE-v1" ++ suite_id ++ label ++ info) n.
(** RFC 9180, section 4.1: ExtractAndExpand(dh, enc || pkRm) with suite_id = "KEM" || I2OSP(kem_id, 2). *)
Definition rfc9180_secret (L : lib) (k : Z * hash * nat) (dh enc pk : bytes) : bytes :=
  let '(id, h, n) := k in
  let suite_id := lit "KEM" ++ i2osp2 id in
  let prk := labeled_extract L h suite_id [] (lit "eae_prk") dh in
  labeled_expand L h suite_id prk (lit "shared_secret") (enc ++ pk) n.

(** The public key that an encoding stands for. *)
Definition encoded (L : lib) (c : curve) (b q : bytes) : Prop :=
  match c with
  | X25519 => List.length b = 32%nat /\ q = b
  | X448 => List.length b = 56%nat /\ q = b
  | _ => t_point L c b = Some q
  end.

(** An RSA key pair. *)
Definition rsa_pair (e d n : Z) : Prop :=
  exists p q, prime p /\ prime q /\ p <> q /\ n = p * q /\ 0 < e /\ 0 < d /\
    (e * d) mod (p - 1) = 1 mod (p - 1) /\ (e * d) mod (q - 1) = 1 mod (q - 1).
(** The value of a big-endian byte string. *)
Fixpoint value (b : bytes) : Z :=
  match b with [] => 0 | x :: r => x * 256 ^ Z.of_nat (List.length r) + value r end.
(** [b] is the big-endian form of [v] with [size] bytes. *)
Definition big_endian (size : nat) (v : Z) (b : bytes) : Prop :=
  List.length b = size /\ is_bytes b = true /\ value b = v.
(** The number of bytes of the modulus. *)
Definition modulus_bytes (n : Z) (l : nat) : Prop := 256 ^ (Z.of_nat l - 1) <= n < 256 ^ Z.of_nat l.

(** KDF3 of ANSI X9.44: the blocks Hash(I2OSP(i, 4) || Z) for i = 1, 2, ... *)
Definition i2osp4 (v : Z) : bytes := [v / 16777216; v / 65536 mod 256; v / 256 mod 256; v mod 256].
Definition kdf3_blocks (L : lib) (z : bytes) (n : nat) : bytes :=
  concat (map (fun i => t_hash L Sha256 (i2osp4 (Z.of_nat (S i)) ++ z)) (seq 0 n)).
