(** What draft-ietf-lamps-pq-composite-sigs says, written without reference to the
    functions of CompSigModel.v: only its data types and the literal notation are used. *)
From Coq Require Import String NArith.
From Verif Require Import Prelude CompSigModel.
From Verif Require PqKeyModel.
Import ListNotations.
Open Scope Z_scope.

(** The traditional half of a combination. *)
Inductive trad_alg := TRsa (bits : N) (p : pad) | TEcdsa (curve : string) | TEd25519 | TEd448.

(** One row of the draft: the last arc of the OID, the two algorithms, the label, the hash of the
    traditional algorithm (none for EdDSA) and the pre-hash of the message. *)
Record row := Row { r_arc : Z; r_dsa : PqKeyModel.dsa_name; r_trad : trad_alg; r_label : string;
                    r_inner : option hash; r_pre : hash }.

Definition draft : list row :=
  let m44 := PqKeyModel.D44 in let m65 := PqKeyModel.D65 in let m87 := PqKeyModel.D87 in [
  Row 37 m44 (TRsa 2048 Pss) "COMPSIG-MLDSA44-RSA2048-PSS-SHA256" (Some Sha256) Sha256;
  Row 38 m44 (TRsa 2048 Pkcs15) "COMPSIG-MLDSA44-RSA2048-PKCS15-SHA256" (Some Sha256) Sha256;
  Row 39 m44 TEd25519 "COMPSIG-MLDSA44-Ed25519-SHA512" None Sha512;
  Row 40 m44 (TEcdsa "secp256r1") "COMPSIG-MLDSA44-ECDSA-P256-SHA256" (Some Sha256) Sha256;
  Row 41 m65 (TRsa 3072 Pss) "COMPSIG-MLDSA65-RSA3072-PSS-SHA512" (Some Sha256) Sha512;
  Row 42 m65 (TRsa 3072 Pkcs15) "COMPSIG-MLDSA65-RSA3072-PKCS15-SHA512" (Some Sha256) Sha512;
  Row 43 m65 (TRsa 4096 Pss) "COMPSIG-MLDSA65-RSA4096-PSS-SHA512" (Some Sha384) Sha512;
  Row 44 m65 (TRsa 4096 Pkcs15) "COMPSIG-MLDSA65-RSA4096-PKCS15-SHA512" (Some Sha384) Sha512;
  Row 45 m65 (TEcdsa "secp256r1") "COMPSIG-MLDSA65-ECDSA-P256-SHA512" (Some Sha256) Sha512;
  Row 46 m65 (TEcdsa "secp384r1") "COMPSIG-MLDSA65-ECDSA-P384-SHA512" (Some Sha384) Sha512;
  Row 47 m65 (TEcdsa "brainpoolP256r1") "COMPSIG-MLDSA65-ECDSA-BP256-SHA512" (Some Sha256) Sha512;
  Row 48 m65 TEd25519 "COMPSIG-MLDSA65-Ed25519-SHA512" None Sha512;
  Row 49 m87 (TEcdsa "secp384r1") "COMPSIG-MLDSA87-ECDSA-P384-SHA512" (Some Sha384) Sha512;
  Row 50 m87 (TEcdsa "brainpoolP384r1") "COMPSIG-MLDSA87-ECDSA-BP384-SHA512" (Some Sha384) Sha512;
  Row 51 m87 TEd448 "COMPSIG-MLDSA87-Ed448-SHAKE256" None Shake256;
  Row 52 m87 (TRsa 3072 Pss) "COMPSIG-MLDSA87-RSA3072-PSS-SHA512" (Some Sha256) Sha512;
  Row 53 m87 (TRsa 4096 Pss) "COMPSIG-MLDSA87-RSA4096-PSS-SHA512" (Some Sha384) Sha512;
  Row 54 m87 (TEcdsa "secp521r1") "COMPSIG-MLDSA87-ECDSA-P521-SHA512" (Some Sha512) Sha512]%string.

Definition pad_of (use_pss : bool) : pad := if use_pss then Pss else Pkcs15.

(** The traditional algorithm of a key; the padding is chosen by the caller. *)
Definition pub_alg (t : tpub) (use_pss : bool) : option trad_alg :=
  match t with
  | RsaPub bits _ => Some (TRsa bits (pad_of use_pss)) | EcPub c _ => Some (TEcdsa c)
  | Ed25519Pub _ => Some TEd25519 | Ed448Pub _ => Some TEd448 | OtherPub => None
  end.
Definition priv_alg (t : tpriv) (use_pss : bool) : option trad_alg :=
  match t with
  | RsaPriv bits _ => Some (TRsa bits (pad_of use_pss)) | EcPriv c _ => Some (TEcdsa c)
  | Ed25519Priv _ => Some TEd25519 | Ed448Priv _ => Some TEd448 | OtherPriv => None
  end.

(** The row for a key, if any. *)
Definition pub_row (k : pubkey) (use_pss : bool) (r : row) : Prop :=
  In r draft /\ r_dsa r = pk_pq k /\ pub_alg (pk_trad k) use_pss = Some (r_trad r).
Definition priv_row (k : privkey) (use_pss : bool) (r : row) : Prop :=
  In r draft /\ r_dsa r = sk_pq k /\ priv_alg (sk_trad k) use_pss = Some (r_trad r).

(** M' = Prefix || Label || len(ctx) || ctx || PH(M). *)
Definition representative (r : row) (ctx digest : bytes) : bytes :=
  lit "CompositeAlgorithmSignatures2025" ++ lit (r_label r) ++ [Z.of_nat (List.length ctx)] ++ ctx ++ digest.

(** Sizes of ML-DSA signatures (FIPS 204, table 2). *)
Definition dsa_len (a : PqKeyModel.dsa_name) : nat :=
  match a with PqKeyModel.D44 => 2420 | PqKeyModel.D65 => 3309 | PqKeyModel.D87 => 4627 end.

(** The two component schemes as the draft uses them. *)
Definition dsa_accepts (E : env) (r : row) (pub m sg : bytes) : Prop :=
  PqKeyModel.dsa_verify (c_pq E) (r_dsa r) pub sg m None false (lit (r_label r)) = Ok tt.
Definition trad_verify (E : env) (t : tpub) (p : pad) (h : option hash) (m sg : bytes) : result unit :=
  match t with
  | RsaPub _ b => c_rsa_verify E p h b m sg | EcPub c b => c_ec_verify E c h b m sg
  | Ed25519Pub b => c_ed25519_verify E b m sg | Ed448Pub b => c_ed448_verify E b m sg
  | OtherPub => Err EInvalidKeyCombination
  end.
Definition trad_sign (E : env) (t : tpriv) (p : pad) (h : option hash) (m rnd : bytes) : result bytes :=
  match t with
  | RsaPriv _ b => c_rsa_sign E p h b m rnd | EcPriv c b => c_ec_sign E c h b m rnd
  | Ed25519Priv b => c_ed25519_sign E b m | Ed448Priv b => c_ed448_sign E b m
  | OtherPriv => Err EInvalidKeyCombination
  end.

(** The traditional schemes of the library are correct: what a key signs, its public key accepts. *)
Definition trad_correct (E : env) : Prop := forall t p h m rnd s,
  trad_sign E t p h m rnd = Ok s -> trad_verify E (trad_public E t) p h m s = Ok tt.

(** RSA keys of one of the three sizes of the draft. *)
Definition rsa_size_ok (t : tpriv) : Prop :=
  match t with RsaPriv bits _ => In bits [2048; 3072; 4096]%N | _ => True end.
