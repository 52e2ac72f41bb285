(** Model of loading and saving composite signature keys (pq_logic/combined_factory.py,
    pq_logic/keys/hybrid_key_factory.py, pq_logic/keys/abstract_wrapper_keys.py). *)
From Coq Require Import String Ascii NArith.
From Verif Require Import Prelude CompSigModel.
From Verif Require PqKeyModel.
Open Scope Z_scope.

(** ** Python's string functions *)
(** [str.lower] on ASCII. *)
Definition lower_ascii (c : ascii) : ascii :=
  let n := N_of_ascii c in if ((65 <=? n) && (n <=? 90))%N then ascii_of_N (n + 32) else c.
Fixpoint lower (s : string) : string :=
  match s with EmptyString => EmptyString | String c r => String (lower_ascii c) (lower r) end.
(** [str.startswith]. *)
Definition startswith (p s : string) : bool := String.prefix p s.
(** [p in s]. *)
Fixpoint contains (p s : string) : bool :=
  String.prefix p s || match s with EmptyString => false | String _ r => contains p r end.
(** [str.replace(p, "", 1)]. *)
Fixpoint drop_first (p s : string) : string :=
  if String.prefix p s then String.substring (String.length p) (String.length s - String.length p) s
  else match s with EmptyString => EmptyString | String c r => String c (drop_first p r) end.
(** [str.endswith]. *)
Definition endswith (p s : string) : bool :=
  String.eqb (String.substring (String.length s - String.length p) (String.length p) s) p.

(** ** The libraries *)
(** cryptography and pyasn1: loading and encoding of traditional keys. [None] is a ValueError, except for
    [l_rsa_pub_rest]: the remainder after decoding an RSAPublicKey structure, [None] a PyAsn1Error. *)
Record lib := {
  l_ed25519_pub : bytes -> option bytes; l_ed448_pub : bytes -> option bytes;
  l_ec_point : string -> bytes -> option bytes;
  l_rsa_pub_rest : bytes -> option bytes;
  l_der_pub : bytes -> option tpub;
  l_ed25519_priv : bytes -> option bytes; l_ed448_priv : bytes -> option bytes;
  l_x25519_priv : bytes -> option bytes; l_x448_priv : bytes -> option bytes;
  l_ec_priv_rest : bytes -> option bytes; l_rsa_priv_rest : bytes -> option bytes;
  l_der_priv : bytes -> option tpriv;
  l_enc_pub : tpub -> bytes;
  l_enc_priv : tpriv -> bytes
}.

(** resources/oidutils.py 310-326 (CURVE_NAMES_TO_INSTANCES): the name of the curve object; the entries for the curves
    of at most 224 bits are kept too. *)
Definition curve_instance (n : string) : option string :=
  match find (fun p => String.eqb (fst p) n)
    [("secp192r1", "secp192r1"); ("prime192v1", "secp192r1"); ("secp224r1", "secp224r1"); ("prime224v1", "secp224r1");
     ("secp256r1", "secp256r1"); ("prime256v1", "secp256r1"); ("secp384r1", "secp384r1"); ("secp521r1", "secp521r1");
     ("secp256k1", "secp256k1"); ("brainpoolP256r1", "brainpoolP256r1"); ("brainpoolP384r1", "brainpoolP384r1");
     ("brainpoolP512r1", "brainpoolP512r1"); ("brainpoolp256r1", "brainpoolP256r1"); ("brainpoolp384r1", "brainpoolP384r1");
     ("brainpoolp512r1", "brainpoolP512r1")]%string with
  | Some (_, c) => Some c
  | None => None
  end.

(** pq_logic/keys/pq_key_factory.py 371-381 (PQKeyFactory.get_pq_alg_name): the first name of PQ_NAME_2_OID that occurs.
    The ML-DSA names come first in that table; a name with none of them ends in ValueError here, while the code goes on
    to other algorithms, which the composite signature code refuses later (InvalidKeyData, or a failing ML-DSA loader). *)
Definition get_pq_alg (alg : string) : result PqKeyModel.dsa_name :=
  if contains "ml-dsa-44" alg then Ok PqKeyModel.D44
  else if contains "ml-dsa-65" alg then Ok PqKeyModel.D65
  else if contains "ml-dsa-87" alg then Ok PqKeyModel.D87
  else Err EValueError.

(** pq_logic/combined_factory.py 821-847 (CombinedKeyFactory.get_pq_and_trad_name_form_hybrid_name) for composite signature
    names; other prefixes are not modelled here. *)
Definition split_name (name : string) : result (PqKeyModel.dsa_name * string) :=
  let alg := lower name in
  let! _ := guard (startswith "composite-sig-" alg) ENotImplemented in
  let! pq := get_pq_alg alg in
  Ok (pq, drop_first (pq_name pq ++ "-") (drop_first "composite-sig-" alg)).

Section Env.
Variable E : env.
Variable L : lib.

Definition of_opt {A} (o : option A) (e : exn) : result A := match o with Some x => Ok x | None => Err e end.

(** ** Public keys *)
(** pq_logic/combined_factory.py 995-1032 (CombinedKeyFactory._load_composite_sig_from_public_bytes) *)
Definition load_public (algorithm : string) (data : bytes) : result pubkey :=
  let! (pq, trad) := split_name algorithm in
  let! (pk, rest) := match PqKeyModel.factory_from_public_bytes (PqKeyModel.Dsa pq) data true with
                     | Err EValueError => Err EInvalidKeyData
                     | r => r
                     end in
  let! t :=
    if String.eqb trad "ed448" then let! b := of_opt (l_ed448_pub L rest) EInvalidKeyData in Ok (Ed448Pub b)
    else if String.eqb trad "ed25519" then let! b := of_opt (l_ed25519_pub L rest) EInvalidKeyData in Ok (Ed25519Pub b)
    else if startswith "ecdsa-" trad then
      let! c := of_opt (curve_instance (drop_first "ecdsa-" trad)) EKeyError in
      let! b := of_opt (l_ec_point L c rest) EInvalidKeyData in Ok (EcPub c b)
    else
      let! r := of_opt (l_rsa_pub_rest L rest) EBadAsn1Data in
      let! _ := guard (match r with [] => true | _ => false end) EInvalidKeyData in
      of_opt (l_der_pub L rest) EInvalidKeyData in
  let k := {| pk_pq := pq; pk_pq_bytes := PqKeyModel.p_bytes pk; pk_trad := t |} in
  let! _ := pub_oid k (startswith "rsa" trad) in
  Ok k.

(** pq_logic/keys/composite_sig.py 87-89 (CompositeSigPublicKey._export_public_key) *)
Definition export_public (k : pubkey) : bytes := pk_pq_bytes k ++ l_enc_pub L (pk_trad k).

(** ** Private keys *)
(** pq_logic/combined_factory.py 896-919 (CombinedKeyFactory._try_load_ec_private_from_asn1) inside the try of its caller, which
    turns ValueError and BadAsn1Data into InvalidKeyData. *)
Definition load_ec_priv (curve : string) (d : bytes) : result tpriv :=
  let! _ := of_opt (curve_instance curve) EInvalidKeyData in
  let! r := of_opt (l_ec_priv_rest L d) EInvalidKeyData in
  let! _ := guard (match r with [] => true | _ => false end) EInvalidKeyData in
  let! t := of_opt (l_der_priv L d) EInvalidKeyData in
  match t with
  | EcPriv c _ => let! _ := guard (String.eqb (lower c) curve) EInvalidKeyData in Ok t
  | _ => Err EInvalidKeyData
  end.

(** [int(s)] for the part of an RSA name after "rsa": decimal digits; anything else is a ValueError. *)
Definition rsa_num (s : string) : option N :=
  match DecimalString.NilEmpty.uint_of_string s with Some u => Some (N.of_uint u) | None => None end.

(** pq_logic/combined_factory.py 943-992 (CombinedKeyFactory._load_trad_composite_private_key) and
    pq_logic/combined_factory.py 922-940 (CombinedKeyFactory._load_trad_raw_key) *)
Definition load_trad_priv (trad : string) (d : bytes) : result tpriv :=
  if startswith "ecdsa" trad || startswith "ecdh" trad then load_ec_priv (drop_first "ecdh-" (drop_first "ecdsa-" trad)) d
  else if String.eqb trad "ed448" then let! b := of_opt (l_ed448_priv L d) EInvalidKeyData in Ok (Ed448Priv b)
  else if String.eqb trad "ed25519" then let! b := of_opt (l_ed25519_priv L d) EInvalidKeyData in Ok (Ed25519Priv b)
  else if String.eqb trad "x25519" then let! b := of_opt (l_x25519_priv L d) EInvalidKeyData in Ok OtherPriv
  else if String.eqb trad "x448" then let! b := of_opt (l_x448_priv L d) EInvalidKeyData in Ok OtherPriv
  else if startswith "rsa" trad then
    let trad := drop_first "-pss" trad in
    let! r := of_opt (l_rsa_priv_rest L d) EInvalidKeyData in
    let! _ := guard (match r with [] => true | _ => false end) EInvalidKeyData in
    let! t := of_opt (l_der_priv L d) EInvalidKeyData in
    match t with
    | RsaPriv bits _ =>
        let! num := of_opt (rsa_num (drop_first "rsa" trad)) EInvalidKeyData in
        let! _ := guard (N.eqb num bits) EInvalidKeyData in Ok t
    | _ => Err EInvalidKeyData
    end
  else Err EInvalidKeyData.

(** pq_logic/combined_factory.py 870-893 (CombinedKeyFactory._load_composite_sig_from_private_bytes) *)
Definition load_private_bytes (algorithm : string) (d : bytes) : result privkey :=
  let! (pq, trad) := split_name algorithm in
  let! k := PqKeyModel.from_private_bytes (c_pq E) (PqKeyModel.Dsa pq) (firstn 32 d) in
  let! t := load_trad_priv trad (skipn 32 d) in
  let use_pss := endswith "-pss" trad in
  let key := {| sk_pq := pq; sk_pq_key := k; sk_trad := t |} in
  let! _ := priv_oid key use_pss in
  Ok key.

(** pq_logic/keys/abstract_wrapper_keys.py 610-618 (HybridSigPublicKey.__eq__); comparison of two objects of the
    cryptography library compares class, parameters and value.  [name] raises for an unsupported class. *)
Definition tpub_eqb (a b : tpub) : bool :=
  match a, b with
  | RsaPub n x, RsaPub m y => N.eqb n m && bytes_eqb x y
  | EcPub c x, EcPub d y => String.eqb c d && bytes_eqb x y
  | Ed25519Pub x, Ed25519Pub y | Ed448Pub x, Ed448Pub y => bytes_eqb x y
  | _, _ => false
  end.
Definition pub_eq (a b : pubkey) : result bool :=
  let! n := pub_trad_name (pk_trad a) false in
  let! m := pub_trad_name (pk_trad b) false in
  if negb (String.eqb (comp_name (pk_pq a) n) (comp_name (pk_pq b) m)) then Ok false
  else Ok (bytes_eqb (pk_pq_bytes a) (pk_pq_bytes b) && tpub_eqb (pk_trad a) (pk_trad b)).

(** pq_logic/combined_factory.py 850-867 (CombinedKeyFactory._load_composite_sig_key) *)
Definition load_private (algorithm : string) (d : bytes) (pub : option bytes) : result privkey :=
  let! k := load_private_bytes algorithm d in
  match pub with
  | None => Ok k
  | Some b =>
      let! p := load_public algorithm b in
      let! same := pub_eq (public_key E k) p in
      let! _ := guard same EMismatchingKey in
      Ok k
  end.

(** ** Saving *)
(** pq_logic/keys/hybrid_key_factory.py 537-582 (HybridKeyFactory._save_keys_with_support_seed) for composite signature keys:
    their class has no private_bytes_raw method, so that saving the seed and the key ends in AttributeError. *)
Definition export_private (k : privkey) (t : PqKeyModel.save_type) : result bytes :=
  let! _ := PqKeyModel.save_private (sk_pq_key k) t in
  match t with
  | PqKeyModel.SEED => let! seed := PqKeyModel.private_numbers (sk_pq_key k) in Ok (seed ++ l_enc_priv L (sk_trad k))
  | PqKeyModel.SEED_AND_RAW => let! _ := PqKeyModel.private_numbers (sk_pq_key k) in Err EAttribute
  | PqKeyModel.RAW => Ok (PqKeyModel.k_priv (sk_pq_key k) ++ l_enc_priv L (sk_trad k))
  end.

(** pq_logic/tmp_oids.py 149-149 (COMPOSITE_SIG_OID_TO_NAME) *)
Definition name_of_oid (o : oid) : option string :=
  match find (fun p => Z.eqb (snd p) o) name_to_oid with Some (n, _) => Some n | None => None end.

(** pq_logic/keys/hybrid_key_factory.py 585-628 (HybridKeyFactory.save_private_key_one_asym_key): OID, privateKey and publicKey of the
    structure (version 1). *)
Definition save_one_asym (k : privkey) (t : PqKeyModel.save_type) : result (oid * bytes * bytes) :=
  let! o := priv_oid k true in
  let! d := export_private k t in
  Ok (o, d, export_public (public_key E k)).
(** pq_logic/combined_factory.py 548-600 (CombinedKeyFactory.load_private_key_from_one_asym_key) for composite signature OIDs; a
    structure with other OIDs goes elsewhere. *)
Definition load_one_asym (o : oid) (version : Z) (d : bytes) (pub : option bytes) : result privkey :=
  let! _ := guard ((version =? 0) || (version =? 1)) EInvalidKeyData in
  let! _ := guard (negb ((version =? 0) && match pub with Some _ => true | None => false end)) EInvalidKeyData in
  let! n := of_opt (name_of_oid o) EBadAlg in
  load_private n d pub.
(** pq_logic/combined_factory.py 327-351 (CombinedKeyFactory._load_hybrid_key_from_spki) for composite signature OIDs. *)
Definition load_spki (o : oid) (data : bytes) : result pubkey :=
  let! n := of_opt (name_of_oid o) EBadAlg in load_public n data.
End Env.
