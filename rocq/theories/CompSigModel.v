(** Model of composite signature keys (pq_logic/keys/composite_sig.py,
    pq_logic/keys/abstract_wrapper_keys.py, pq_logic/tmp_oids.py and the
    composite part of pq_logic/combined_factory.py). *)
From Coq Require Import String Ascii DecimalString NArith.
From Verif Require Import Prelude.
From Verif Require PqKeyModel.
Open Scope Z_scope.

(** Python's [b"..."] literal of a printable ASCII string. *)
Fixpoint lit (s : string) : bytes :=
  match s with
  | EmptyString => []
  | String c r => Z.of_N (N_of_ascii c) :: lit r
  end.

(** [str(n)] for a natural number, as in an f-string. *)
Definition dec (n : N) : string := NilEmpty.string_of_uint (N.to_uint n).

(** pq_logic/keys/sig_keys.py 48-48 (ML_DSA_NAMES): names of the ML-DSA keys. *)
Definition pq_name (a : PqKeyModel.dsa_name) : string :=
  match a with
  | PqKeyModel.D44 => "ml-dsa-44" | PqKeyModel.D65 => "ml-dsa-65" | PqKeyModel.D87 => "ml-dsa-87"
  end.

(** pq_logic/keys/sig_keys.py 90-93 (sig_size). *)
Definition sig_size (a : PqKeyModel.dsa_name) : nat :=
  match a with PqKeyModel.D44 => 2420 | PqKeyModel.D65 => 3309 | PqKeyModel.D87 => 4627 end.

(** Hash algorithms, the keys of ALLOWED_HASH_TYPES (resources/oidutils.py
    294-306) that occur in the composite tables. *)
Inductive hash := Sha256 | Sha384 | Sha512 | Shake256.

(** The traditional component: an object of the cryptography library, of which
    only its class, RSA modulus size or curve name, and an opaque value are
    kept.  [OtherPub]/[OtherPriv] is an object of any other class. *)
Inductive tpub :=
| RsaPub (bits : N) (k : bytes) | EcPub (curve : string) (k : bytes)
| Ed25519Pub (k : bytes) | Ed448Pub (k : bytes) | OtherPub.
Inductive tpriv :=
| RsaPriv (bits : N) (k : bytes) | EcPriv (curve : string) (k : bytes)
| Ed25519Priv (k : bytes) | Ed448Priv (k : bytes) | OtherPriv.

Inductive pad := Pss | Pkcs15.

(** What is taken from outside: the ML-DSA environment, the hash functions, and the
    signature schemes of the cryptography library.  PSS is always used with MGF1 of
    the same hash and a salt of the digest length.  [rnd] is the randomness of the
    signer. *)
Record env := {
  c_pq : PqKeyModel.env;
  c_hash : hash -> bytes -> bytes;
  c_pub : tpriv -> bytes;
  c_rsa_sign : pad -> option hash -> bytes -> bytes -> bytes -> result bytes;
  c_rsa_verify : pad -> option hash -> bytes -> bytes -> bytes -> result unit;
  c_ec_sign : string -> option hash -> bytes -> bytes -> bytes -> result bytes;
  c_ec_verify : string -> option hash -> bytes -> bytes -> bytes -> result unit;
  c_ed25519_sign : bytes -> bytes -> result bytes;
  c_ed25519_verify : bytes -> bytes -> bytes -> result unit;
  c_ed448_sign : bytes -> bytes -> result bytes;
  c_ed448_verify : bytes -> bytes -> bytes -> result unit
}.

Record pubkey := { pk_pq : PqKeyModel.dsa_name; pk_pq_bytes : bytes; pk_trad : tpub }.
Record privkey := { sk_pq : PqKeyModel.dsa_name; sk_pq_key : PqKeyModel.key; sk_trad : tpriv }.

(** ** Names and object identifiers *)
(** The last arc of id-compSig, pq_logic/tmp_oids.py 106-106 (id_compSig_base): 1.3.6.1.5.5.7.6.x *)
Definition oid := Z.

(** pq_logic/tmp_oids.py 126-147 (COMPOSITE_SIG_NAME_TO_OID). *)
Definition name_to_oid : list (string * oid) := [
  ("composite-sig-ml-dsa-44-rsa2048-pss", 37);
  ("composite-sig-ml-dsa-44-rsa2048", 38);
  ("composite-sig-ml-dsa-44-ed25519", 39);
  ("composite-sig-ml-dsa-44-ecdsa-secp256r1", 40);
  ("composite-sig-ml-dsa-65-rsa3072-pss", 41);
  ("composite-sig-ml-dsa-65-rsa3072", 42);
  ("composite-sig-ml-dsa-65-rsa4096-pss", 43);
  ("composite-sig-ml-dsa-65-rsa4096", 44);
  ("composite-sig-ml-dsa-65-ecdsa-secp256r1", 45);
  ("composite-sig-ml-dsa-65-ecdsa-secp384r1", 46);
  ("composite-sig-ml-dsa-65-ecdsa-brainpoolP256r1", 47);
  ("composite-sig-ml-dsa-65-ed25519", 48);
  ("composite-sig-ml-dsa-87-ecdsa-secp384r1", 49);
  ("composite-sig-ml-dsa-87-ecdsa-brainpoolP384r1", 50);
  ("composite-sig-ml-dsa-87-ed448", 51);
  ("composite-sig-ml-dsa-87-rsa3072-pss", 52);
  ("composite-sig-ml-dsa-87-rsa4096-pss", 53);
  ("composite-sig-ml-dsa-87-ecdsa-secp521r1", 54)]%string.

Fixpoint lookup_name (s : string) (t : list (string * oid)) : option oid :=
  match t with
  | [] => None
  | (n, o) :: t' => if String.eqb n s then Some o else lookup_name s t'
  end.

(** pq_logic/tmp_oids.py 151-170 (COMPOSITE_SIG_LABELS). *)
Definition label_of (o : oid) : option bytes :=
  option_map lit (
  match o with
  | 37 => Some "COMPSIG-MLDSA44-RSA2048-PSS-SHA256"
  | 38 => Some "COMPSIG-MLDSA44-RSA2048-PKCS15-SHA256"
  | 39 => Some "COMPSIG-MLDSA44-Ed25519-SHA512"
  | 40 => Some "COMPSIG-MLDSA44-ECDSA-P256-SHA256"
  | 41 => Some "COMPSIG-MLDSA65-RSA3072-PSS-SHA512"
  | 42 => Some "COMPSIG-MLDSA65-RSA3072-PKCS15-SHA512"
  | 43 => Some "COMPSIG-MLDSA65-RSA4096-PSS-SHA512"
  | 44 => Some "COMPSIG-MLDSA65-RSA4096-PKCS15-SHA512"
  | 45 => Some "COMPSIG-MLDSA65-ECDSA-P256-SHA512"
  | 46 => Some "COMPSIG-MLDSA65-ECDSA-P384-SHA512"
  | 47 => Some "COMPSIG-MLDSA65-ECDSA-BP256-SHA512"
  | 48 => Some "COMPSIG-MLDSA65-Ed25519-SHA512"
  | 49 => Some "COMPSIG-MLDSA87-ECDSA-P384-SHA512"
  | 50 => Some "COMPSIG-MLDSA87-ECDSA-BP384-SHA512"
  | 51 => Some "COMPSIG-MLDSA87-Ed448-SHAKE256"
  | 52 => Some "COMPSIG-MLDSA87-RSA3072-PSS-SHA512"
  | 53 => Some "COMPSIG-MLDSA87-RSA4096-PSS-SHA512"
  | 54 => Some "COMPSIG-MLDSA87-ECDSA-P521-SHA512"
  | _ => None
  end%string).

(** pq_logic/tmp_oids.py 172-191 (COMPOSITE_SIG_INNER_HASH_OID_2_NAME); [.get] gives
    None for an unknown OID and for the entries that are None. *)
Definition inner_hash (o : oid) : option hash :=
  match o with
  | 37 => Some Sha256 | 38 => Some Sha256 | 39 => None | 40 => Some Sha256
  | 41 => Some Sha256 | 42 => Some Sha256 | 43 => Some Sha384 | 44 => Some Sha384
  | 45 => Some Sha256 | 46 => Some Sha384 | 47 => Some Sha256 | 48 => None
  | 49 => Some Sha384 | 50 => Some Sha384 | 51 => None
  | 52 => Some Sha256 | 53 => Some Sha384 | 54 => Some Sha512
  | _ => None
  end.

(** pq_logic/tmp_oids.py 193-212 (COMPOSITE_SIG_PREHASH_OID_2_HASH); a missing entry is a KeyError. *)
Definition prehash_of (o : oid) : result hash :=
  match o with
  | 37 => Ok Sha256 | 38 => Ok Sha256 | 39 => Ok Sha512 | 40 => Ok Sha256
  | 41 => Ok Sha512 | 42 => Ok Sha512 | 43 => Ok Sha512 | 44 => Ok Sha512
  | 45 => Ok Sha512 | 46 => Ok Sha512 | 47 => Ok Sha512 | 48 => Ok Sha512
  | 49 => Ok Sha512 | 50 => Ok Sha512 | 51 => Ok Shake256
  | 52 => Ok Sha512 | 53 => Ok Sha512 | 54 => Ok Sha512
  | _ => Err EKeyError
  end.

(** pq_logic/keys/abstract_wrapper_keys.py 762-780 (AbstractCompositePublicKey._get_trad_key_name). *)
Definition pub_trad_name (t : tpub) (use_pss : bool) : result string :=
  match t with
  | EcPub curve _ => Ok ("ecdsa-" ++ curve)%string
  | RsaPub bits _ => Ok ("rsa" ++ dec bits ++ (if use_pss then "-pss" else ""))%string
  | Ed25519Pub _ => Ok "ed25519"%string
  | Ed448Pub _ => Ok "ed448"%string
  | OtherPub => Err EValueError
  end.

(** pq_logic/keys/composite_sig.py 100-103 (CompositeSigPublicKey._get_name),
    pq_logic/keys/composite_sig.py 105-112 (CompositeSigPublicKey.get_oid). *)
Definition comp_name (a : PqKeyModel.dsa_name) (trad : string) : string :=
  ("composite-sig-" ++ pq_name a ++ "-" ++ trad)%string.

Definition oid_by_name (n : string) : result oid :=
  match lookup_name n name_to_oid with
  | Some o => Ok o
  | None => Err EInvalidKeyCombination
  end.

Definition pub_oid (k : pubkey) (use_pss : bool) : result oid :=
  let! t := pub_trad_name (pk_trad k) use_pss in
  oid_by_name (comp_name (pk_pq k) t).

(** pq_logic/keys/abstract_wrapper_keys.py 894-897 (AbstractCompositePrivateKey._get_rsa_size):
    [min] keeps the first of several minimal elements. *)
Definition dist (x v : N) : N := if (x <? v)%N then (v - x)%N else (x - v)%N.
Fixpoint min_by (v best : N) (l : list N) : N :=
  match l with
  | [] => best
  | x :: l' => min_by v (if (dist x v <? dist best v)%N then x else best) l'
  end.
Definition get_rsa_size (v : N) : N := min_by v 2048%N [3072%N; 4096%N].

(** pq_logic/keys/composite_sig.py 254-266 (CompositeSigPrivateKey._get_trad_key_name),
    pq_logic/keys/composite_sig.py 278-283 (CompositeSigPrivateKey.get_oid). *)
Definition priv_trad_name (t : tpriv) (use_pss : bool) : result string :=
  match t with
  | RsaPriv bits _ => Ok ("rsa" ++ dec (get_rsa_size bits) ++ (if use_pss then "-pss" else ""))%string
  | EcPriv curve _ => Ok ("ecdsa-" ++ curve)%string
  | Ed25519Priv _ => Ok "ed25519"%string
  | Ed448Priv _ => Ok "ed448"%string
  | OtherPriv => Err EInvalidKeyCombination
  end.

Definition priv_oid (k : privkey) (use_pss : bool) : result oid :=
  let! t := priv_trad_name (sk_trad k) use_pss in
  oid_by_name (comp_name (sk_pq k) t).

Section Env.
Variable E : env.

(** ** The signed message *)
(** pq_logic/keys/composite_sig.py 37-37 (PREFIX) *)
Definition PREFIX : bytes := lit "CompositeAlgorithmSignatures2025".

(** pq_logic/keys/composite_sig.py 58-63 (_get_label) *)
Definition get_label (o : oid) : result bytes :=
  match label_of o with Some l => Ok l | None => Err EInvalidKeyCombination end.

(** pq_logic/keys/composite_sig.py 52-55 (_compute_prehash) *)
Definition compute_prehash (o : oid) (data : bytes) : result bytes :=
  let! h := prehash_of o in Ok (c_hash E h data).

(** pq_logic/keys/composite_sig.py 132-140 (CompositeSigPublicKey.prepare_sig_input) *)
Definition prepare_sig_input (o : oid) (data ctx : bytes) : result (bytes * bytes) :=
  let! _ := guard (negb (255 <? List.length ctx)%nat) EInvalidSignature in
  let! label := get_label o in
  let length_bytes := [Z.of_nat (List.length ctx)] in
  let m_prime := PREFIX ++ label ++ length_bytes ++ ctx in
  let! ph := compute_prehash o data in
  Ok (m_prime ++ ph, label).

(** pq_logic/keys/composite_sig.py 142-148 (CompositeSigPublicKey._prepare_input) and
    pq_logic/keys/composite_sig.py 285-291 (CompositeSigPrivateKey._prepare_input): the OID
    function is that of the key. *)
Definition prepare_input (get_oid : result oid) (data ctx : bytes) : result (bytes * bytes) :=
  let! _ := guard (negb (255 <? List.length ctx)%nat) EInvalidSignature in
  let! o := get_oid in
  prepare_sig_input o data ctx.

(** ** Verification *)
(** pq_logic/keys/composite_sig.py 158-179 (CompositeSigPublicKey._verify_trad) *)
Definition verify_trad (k : pubkey) (data sg : bytes) (use_pss : bool) : result unit :=
  let! o := pub_oid k use_pss in
  let h := inner_hash o in
  match pk_trad k with
  | RsaPub _ b => if use_pss then c_rsa_verify E Pss h b data sg else c_rsa_verify E Pkcs15 h b data sg
  | EcPub c b => c_ec_verify E c h b data sg
  | Ed25519Pub b => c_ed25519_verify E b data sg
  | Ed448Pub b => c_ed448_verify E b data sg
  | OtherPub => Err EInvalidKeyCombination
  end.

(** pq_logic/keys/composite_sig.py 181-193 (CompositeSigPublicKey.verify) *)
Definition verify (k : pubkey) (data sg ctx : bytes) (use_pss : bool) : result unit :=
  let mldsa_sig := firstn (sig_size (pk_pq k)) sg in
  let trad_sig := skipn (sig_size (pk_pq k)) sg in
  let! (m_prime, label) := prepare_input (pub_oid k use_pss) data ctx in
  let! _ := PqKeyModel.dsa_verify (c_pq E) (pk_pq k) (pk_pq_bytes k) mldsa_sig m_prime None false label in
  verify_trad k m_prime trad_sig use_pss.

(** ** Signing *)
(** pq_logic/keys/composite_sig.py 293-316 (CompositeSigPrivateKey._sign_trad) *)
Definition sign_trad (k : privkey) (data : bytes) (use_pss : bool) (rnd : bytes) : result bytes :=
  let! o := priv_oid k use_pss in
  let h := inner_hash o in
  match sk_trad k with
  | RsaPriv _ b => if use_pss then c_rsa_sign E Pss h b data rnd else c_rsa_sign E Pkcs15 h b data rnd
  | EcPriv c b => c_ec_sign E c h b data rnd
  | Ed25519Priv b => c_ed25519_sign E b data
  | Ed448Priv b => c_ed448_sign E b data
  | OtherPriv => Err EInvalidKeyCombination
  end.

(** pq_logic/keys/composite_sig.py 318-338 (CompositeSigPrivateKey.sign); [None]: the rejection loop of
    ML-DSA did not end within [fuel] rounds. *)
Definition sign (k : privkey) (fuel : nat) (data ctx : bytes) (use_pss : bool) (rnd : bytes) : option (result bytes) :=
  if (255 <? List.length ctx)%nat then Some (Err EValueError)
  else
    match prepare_input (priv_oid k use_pss) data ctx with
    | Err e => Some (Err e)
    | Ok (m_prime, label) =>
        match PqKeyModel.dsa_sign (c_pq E) (sk_pq k) fuel (PqKeyModel.k_priv (sk_pq_key k)) m_prime None label false rnd with
        | None => None
        | Some (Err e) => Some (Err e)
        | Some (Ok mldsa_sig) =>
            Some (let! trad_sig := sign_trad k m_prime use_pss rnd in Ok (mldsa_sig ++ trad_sig))
        end
    end.

(** The public half of a traditional key has the class, size and curve of the private one. *)
Definition trad_public (t : tpriv) : tpub :=
  match t with
  | RsaPriv bits _ => RsaPub bits (c_pub E t)
  | EcPriv curve _ => EcPub curve (c_pub E t)
  | Ed25519Priv _ => Ed25519Pub (c_pub E t)
  | Ed448Priv _ => Ed448Pub (c_pub E t)
  | OtherPriv => OtherPub
  end.

(** pq_logic/keys/composite_sig.py 247-252 (CompositeSigPrivateKey.public_key) *)
Definition public_key (k : privkey) : pubkey :=
  {| pk_pq := sk_pq k; pk_pq_bytes := PqKeyModel.p_bytes (PqKeyModel.public_key (sk_pq_key k));
     pk_trad := trad_public (sk_trad k) |}.

(** pq_logic/keys/composite_sig.py 200-208 (CompositeSigPublicKey.to_spki): the OID, for
    [use_pss] left out or given. *)
Definition spki_oid (k : pubkey) (use_pss : option bool) : result oid :=
  pub_oid k (match use_pss with Some b => b | None => true end).
End Env.
