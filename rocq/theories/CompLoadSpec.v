(** Vocabulary for loading and saving composite signature keys. *)
From Coq Require Import String NArith.
From Verif Require Import Prelude CompSigModel CompSigSpec CompLoadModel.
From Verif Require PqKeyModel PqKeySpec.
Import ListNotations.
Open Scope Z_scope.

(** What is assumed of the libraries: the key in question, once encoded, is decoded to the same key with nothing left. *)
Definition pub_reads (L : lib) (t : tpub) : Prop :=
  let d := l_enc_pub L t in
  match t with
  | Ed25519Pub b => l_ed25519_pub L d = Some b
  | Ed448Pub b => l_ed448_pub L d = Some b
  | EcPub c b => l_ec_point L c d = Some b
  | RsaPub _ _ => l_rsa_pub_rest L d = Some [] /\ l_der_pub L d = Some t
  | OtherPub => True
  end.
Definition priv_reads (L : lib) (t : tpriv) : Prop :=
  let d := l_enc_priv L t in
  match t with
  | Ed25519Priv b => l_ed25519_priv L d = Some b
  | Ed448Priv b => l_ed448_priv L d = Some b
  | EcPriv _ _ => l_ec_priv_rest L d = Some [] /\ l_der_priv L d = Some t
  | RsaPriv _ _ => l_rsa_priv_rest L d = Some [] /\ l_der_priv L d = Some t
  | OtherPriv => True
  end.
(** An RSAPublicKey structure is loaded as an RSA key. *)
Definition rsa_class (L : lib) : Prop := forall d t, l_rsa_pub_rest L d = Some [] -> l_der_pub L d = Some t -> exists n b, t = RsaPub n b.

(** The size of the ML-DSA half. *)
Definition wf_pub (k : pubkey) : Prop := List.length (pk_pq_bytes k) = PqKeySpec.std_pub (PqKeyModel.Dsa (pk_pq k)).
Definition is_rsa (t : trad_alg) : Prop := match t with TRsa _ _ => True | _ => False end.

(** The traditional half of a loaded key was read from [d] in the way the draft asks for. *)
Definition trad_read (L : lib) (t : tpriv) (d : bytes) : Prop :=
  match t with
  | RsaPriv _ _ => l_rsa_priv_rest L d = Some [] /\ l_der_priv L d = Some t
  | EcPriv _ _ => l_ec_priv_rest L d = Some [] /\ l_der_priv L d = Some t
  | Ed25519Priv b => l_ed25519_priv L d = Some b
  | Ed448Priv b => l_ed448_priv L d = Some b
  | OtherPriv => False
  end.
