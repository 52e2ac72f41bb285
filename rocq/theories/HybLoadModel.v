(** Model of loading and saving hybrid key encapsulation keys: X-Wing, Chempat and composite KEM
    (pq_logic/combined_factory.py, pq_logic/keys/hybrid_key_factory.py, pq_logic/keys/chempat_key.py).

    Simplifications.  The DER framing of SubjectPublicKeyInfo and OneAsymmetricKey is left out: their fields are the
    arguments and results.  The loaders of the post-quantum algorithms other than ML-KEM are fields of [klib], and so is
    what cryptography and pyasn1 do with encoded traditional keys. *)
From Coq Require Import String Ascii NArith.
From Verif Require Import Prelude CompSigModel CompLoadModel.
From Verif Require PqKeyModel.
From Verif Require Import TradKemModel HybKemModel.
Open Scope Z_scope.

(** What load_der_private_key returns; EC keys on other curves are among [DOther]. *)
Inductive dkey := DEc (c : curve) (d : bytes) | DRsa (k : bytes) | DOther.
(** [kl_rsa_pub]: load_der_public_key ([None] ValueError, [Some None] a key of another class).  [kl_ec_rest], [kl_rsa_rest]:
    what is left after decoding an ECPrivateKey or RSAPrivateKey structure ([None]: PyAsn1Error).  [kl_der_priv]:
    load_der_private_key.  [kl_ec_der]: private_bytes(DER, TraditionalOpenSSL), [kl_rsa_der]: RSAPrivateKey in DER.
    [kl_derive]: ec.derive_private_key, [kl_value]: private_value.  [kl_pq_pub_len], [kl_pq_seed_len], [kl_pq_priv]: public
    key length, seed length (length of the private key where there is no seed) and from_private_bytes of FrodoKEM,
    McEliece and sntrup761. *)
Record klib := {
  kl_rsa_pub : bytes -> option (option bytes);
  kl_ec_rest : bytes -> option bytes;
  kl_rsa_rest : bytes -> option bytes;
  kl_der_priv : bytes -> option dkey;
  kl_ec_der : curve -> bytes -> bytes;
  kl_rsa_der : bytes -> bytes;
  kl_derive : curve -> Z -> option bytes;
  kl_value : curve -> bytes -> Z;
  kl_pq_pub_len : pqname -> nat;
  kl_pq_seed_len : pqname -> nat;
  kl_pq_priv : pqname -> bytes -> result pqpriv
}.

(** ** Names *)
(** The KEM names of PQ_NAME_2_OID in the order of that table; no name of a signature algorithm occurs in the names of
    the hybrid KEM tables. *)
Definition pq_names : list pqname :=
  [MlKem PqKeyModel.K512; MlKem PqKeyModel.K768; MlKem PqKeyModel.K1024; Sntrup761;
   McEliece M348864; McEliece M460896; McEliece M6688128; McEliece M6960119; McEliece M8192128;
   Frodo F640 true; Frodo F640 false; Frodo F976 true; Frodo F976 false; Frodo F1344 true; Frodo F1344 false].
(** pq_logic/keys/pq_key_factory.py 371-381 (PQKeyFactory.get_pq_alg_name) *)
Definition get_pq_alg_name (alg : string) : result pqname :=
  of_opt (find (fun q => contains (pq_name q) alg) pq_names) EValueError.
(** pq_logic/combined_factory.py 821-847 (CombinedKeyFactory.get_pq_and_trad_name_form_hybrid_name) *)
Definition split_hybrid (name : string) : result (pqname * string) :=
  let alg := lower name in
  let! prefix :=
    if startswith "chempat-" alg then Ok "chempat-"%string
    else if startswith "composite-sig-" alg then Ok "composite-sig-"%string
    else if startswith "composite-dhkem-" alg then Ok "composite-dhkem-"%string
    else if startswith "composite-kem-" alg then Ok "composite-kem-"%string
    else Err ENotImplemented in
  let! q := get_pq_alg_name alg in
  Ok (q, drop_first (pq_name q ++ "-") (drop_first prefix alg)).
(** resources/oid_mapping.py 124-134 (get_curve_instance); the curves of the table that no hybrid name contains are left out. *)
Definition curve_of (n : string) : option curve :=
  match curve_instance n with
  | Some c => find (fun x => String.eqb (curve_name x) c) [P256; P384; P521; BP256; BP384; BP512]
  | None => None
  end.
(** pq_logic/tmp_oids.py 468-468 (COMPOSITE_KEM_OID_2_NAME) and CHEMPAT_OID_2_NAME: the tables read backwards. *)
Fixpoint name_of (o : oid) (l : list (string * oid)) : option string :=
  match l with
  | [] => None
  | (n, o') :: r => if bytes_eqb o o' then Some n else name_of o r
  end.
(** resources/oidutils.py 696-696 (XWING_OID_STR) *)
Definition XWING_OID : oid := [1; 3; 6; 1; 4; 1; 62253; 25722].

Section Lib.
Variable L : hlib.
Variable K : klib.
Notation TL := (h_trad L).

(** ** The post-quantum half *)
Definition pq_pub_len (q : pqname) : nat :=
  match q with MlKem a => PqKeyModel.kem_pk_size a | q => kl_pq_pub_len K q end.
(** pq_logic/keys/pq_key_factory.py 399-417 (PQKeyFactory.from_public_bytes) with allow_rest=True; FrodoKEM without liboqs
    would not check the length. *)
Definition pq_from_public (q : pqname) (data : bytes) : result (pqpub * bytes) :=
  let n := pq_pub_len q in
  let! _ := guard (length (firstn n data) =? n)%nat EInvalidKeyData in
  Ok ({| pp_name := q; pp_bytes := firstn n data |}, skipn n data).
(** from_private_bytes of the key classes. *)
Definition pq_from_private (q : pqname) (d : bytes) : result pqpriv :=
  match q with
  | MlKem a => let! k := PqKeyModel.kem_from_private_bytes (h_pq L) a d in Ok (of_kem a k)
  | q => kl_pq_priv K q d
  end.
(** len(private_numbers()) of a fresh key, or the length of its private bytes: combined_factory.py 464-467. *)
Definition pq_seed_len (q : pqname) : nat := match q with MlKem _ => 64 | q => kl_pq_seed_len K q end.
(** hasattr(key, "private_numbers") *)
Definition has_numbers (q : pqname) : bool := match q with MlKem _ | Frodo _ _ => true | _ => false end.
Definition pq_numbers (k : pqpriv) : result bytes := of_opt (ps_seed k) EValueError.
(** pq_logic/combined_factory.py 531-545 (CombinedKeyFactory._load_pq_key), whose twin in hybrid_key_factory.py is the one called:
    a OneAsymmetricKey of version 0. *)
Definition load_pq_key (q : pqname) (d : bytes) : result pqpriv :=
  match q with
  | MlKem a =>
      let! k := PqKeyModel.from_one_asym_key (h_pq L)
        {| PqKeyModel.o_version := 0; PqKeyModel.o_oid := PqKeyModel.Plain (PqKeyModel.Kem a); PqKeyModel.o_priv := d;
           PqKeyModel.o_pub := None |} in
      Ok (of_kem a k)
  | q => kl_pq_priv K q d
  end.
(** pq_logic/keys/pq_key_factory.py 717-745 (PQKeyFactory.save_keys_with_support_seed) *)
Definition save_pq (k : pqpriv) (t : PqKeyModel.save_type) : result bytes :=
  match ps_name k with
  | MlKem a => PqKeyModel.save_private
      {| PqKeyModel.k_alg := PqKeyModel.Kem a; PqKeyModel.k_priv := ps_priv k; PqKeyModel.k_pub := Some (ps_pub k);
         PqKeyModel.k_seed := ps_seed k |} t
  | Frodo _ _ =>
      match t with
      | PqKeyModel.SEED => pq_numbers k
      | PqKeyModel.SEED_AND_RAW => let! s := pq_numbers k in Ok (s ++ ps_priv k)
      | PqKeyModel.RAW => Ok (ps_priv k)
      end
  | _ => Ok (ps_priv k)
  end.

(** ** X-Wing *)
(** pq_logic/keys/hybrid_key_factory.py 430-478 (HybridKeyFactory.from_one_asym_key), X-Wing branch *)
Definition load_xwing (d : bytes) (pub : option bytes) : result xpriv :=
  let! k := xwing_from_private L d in
  match pub with
  | None => Ok k
  | Some b =>
      let! p := xwing_from_public L b in
      let! _ := guard (bytes_eqb (xwing_public_bytes p) (xwing_public_bytes (xwing_public L k))) EMismatchingKey in
      Ok k
  end.

(** ** Chempat *)
(** pq_logic/keys/chempat_key.py 207-209 (ChempatPublicKey.public_bytes_raw) *)
Definition chempat_public_bytes (k : cpub) : bytes := pp_bytes (cp_pq k) ++ cp_trad k.
(** pq_logic/keys/trad_kem_keys.py 388-411 (DHKEMPublicKey.from_public_bytes) *)
Definition dh_from_public (name : string) (data : bytes) : result (curve * bytes) :=
  let! c := if String.eqb name "x25519" then Ok X25519 else if String.eqb name "x448" then Ok X448
            else of_opt (curve_of (drop_first "ecdh-" name)) EInvalidKeyData in
  match read_pub TL c data with
  | Ok q => Ok (c, q)
  | Err EValueError => Err EInvalidKeyData
  | Err e => Err e
  end.
(** pq_logic/keys/chempat_key.py 83-107 (ChempatPublicKey.from_public_bytes) *)
Definition chempat_from_public (data : bytes) (name : string) : result cpub :=
  let! q := get_pq_alg_name name in
  let! (pk, rest) := pq_from_public q data in
  let trad := drop_first (pq_name q ++ "-") (drop_first "chempat-" name) in
  let! (c, t) := dh_from_public trad rest in
  let k := {| cp_pq := pk; cp_curve := c; cp_trad := t |} in
  let! _ := chempat_oid L k in
  Ok k.
(** pq_logic/keys/trad_kem_keys.py 517-538 (DHKEMPrivateKey.from_private_bytes) *)
Definition dh_from_private (name : string) (d : bytes) : result (curve * bytes) :=
  if String.eqb name "x25519" then (if (length d =? 32)%nat then Ok (X25519, d) else Err EValueError)
  else if String.eqb name "x448" then (if (length d =? 56)%nat then Ok (X448, d) else Err EValueError)
  else
    let! c := of_opt (curve_of (drop_first "ecdh-" name)) EValueError in
    let! k := of_opt (kl_derive K c (from_bytes d)) EValueError in
    Ok (c, k).
(** pq_logic/keys/trad_kem_keys.py 498-503 (DHKEMPrivateKey.encode): to_bytes is given the number of bits as length. *)
Definition dh_encode (c : curve) (d : bytes) : result bytes :=
  if is_ec c then to_bytes (curve_bits c) (kl_value K c d) else Ok d.
(** int.from_bytes(b, "little") and int.to_bytes(4, "little") *)
Definition from_le (b : bytes) : Z := fold_right (fun x acc => x + 256 * acc) 0 b.
Definition to_le4 (n : Z) : result bytes :=
  let! _ := guard (n <? 4294967296) EOverflow in
  Ok [n mod 256; n / 256 mod 256; n / 65536 mod 256; n / 16777216 mod 256].
(** pq_logic/keys/hybrid_key_factory.py 396-427 (HybridKeyFactory._load_chempat_private_key) *)
Definition load_chempat_private (o : oid) (d : bytes) : result cpriv :=
  let! name := of_opt (name_of o CHEMPAT_NAME_2_OID) EKeyError in
  let tmp := drop_first "chempat-" (lower name) in
  let n := Z.to_nat (from_le (firstn 4 d)) in
  let! q := get_pq_alg_name tmp in
  let! k := load_pq_key q (firstn n (skipn 4 d)) in
  let tmp := drop_first (pq_name q ++ "-") tmp in
  let! (c, t) := match dh_from_private tmp (skipn (4 + n) d) with Err EValueError => Err EInvalidKeyData | r => r end in
  Ok {| cs_pq := k; cs_curve := c; cs_trad := t |}.
(** The assignment to _public_key_bytes. *)
Definition set_pub (k : cpriv) (b : bytes) : cpriv :=
  {| cs_pq := {| ps_name := ps_name (cs_pq k); ps_priv := ps_priv (cs_pq k); ps_pub := b; ps_seed := ps_seed (cs_pq k) |};
     cs_curve := cs_curve k; cs_trad := cs_trad k |}.
(** pq_logic/keys/hybrid_key_factory.py 430-478 (HybridKeyFactory.from_one_asym_key), Chempat branch *)
Definition load_chempat (o : oid) (d : bytes) (pub : option bytes) : result cpriv :=
  let! name := of_opt (name_of o CHEMPAT_NAME_2_OID) EKeyError in
  let! k := load_chempat_private o d in
  match pub with
  | None => Ok k
  | Some b =>
      let! p := chempat_from_public b name in
      let k := set_pub k (pp_bytes (cp_pq p)) in
      let! _ := guard (bytes_eqb (chempat_public_bytes p) (chempat_public_bytes (chempat_public L k))) EMismatchingKey in
      Ok k
  end.
(** pq_logic/keys/hybrid_key_factory.py 537-582 (HybridKeyFactory._save_keys_with_support_seed), Chempat branch *)
Definition save_chempat (k : cpriv) (t : PqKeyModel.save_type) : result bytes :=
  let! b := save_pq (cs_pq k) t in
  let! l := to_le4 (Z.of_nat (length b)) in
  let! e := dh_encode (cs_curve k) (cs_trad k) in
  Ok (l ++ b ++ e).

(** ** Composite KEM *)
(** pq_logic/keys/composite_kem.py 178-180 (CompositeKEMPublicKey._export_public_key) *)
Definition comp_public_bytes (k : kpub) : bytes := pp_bytes (kp_pq k) ++ trad_encode TL (kp_trad k).
(** pq_logic/combined_factory.py 285-324 (CombinedKeyFactory._load_composite_kem_public_key).  The class of the key depends on
    "dhkem" in the name; a traditional key of ECDH is wrapped with use_rfc9180=False, or True in that class. *)
Definition load_comp_public (o : oid) (data : bytes) : result kpub :=
  let! name := of_opt (name_of o COMPOSITE_KEM_NAME_2_OID) EKeyError in
  let! (q, trad) := split_hybrid name in
  let! (pk, rest) := pq_from_public q data in
  let! t :=
    if String.eqb trad "x25519" then let! b := read_pub TL X25519 rest in Ok (PDh false X25519 b)
    else if String.eqb trad "x448" then let! b := read_pub TL X448 rest in Ok (PDh false X448 b)
    else if startswith "ecdh-" trad then
      let! c := of_opt (curve_of (drop_first "ecdh-" trad)) EValueError in
      let! b := read_pub TL c rest in Ok (PDh false c b)
    else if startswith "rsa" trad then
      let! num := of_opt (rsa_num (drop_first "rsa" trad)) EValueError in
      let! k := of_opt (kl_rsa_pub K rest) EValueError in
      let! k := of_opt k EInvalidKeyCombination in
      let! _ := guard (N.eqb (t_rsa_bits TL k) num) EInvalidKeyCombination in
      Ok (PRsa k)
    else Err EValueError in
  Ok (mk_kpub (contains "dhkem" name) pk t).

(** pq_logic/combined_factory.py 943-992 (CombinedKeyFactory._load_trad_composite_private_key),
    pq_logic/combined_factory.py 896-919 (CombinedKeyFactory._try_load_ec_private_from_asn1) and
    pq_logic/combined_factory.py 922-940 (CombinedKeyFactory._load_trad_raw_key) for the names of composite KEM: ed448, ed25519
    and ecdsa- do not occur in them.  Every ValueError and BadAsn1Data becomes InvalidKeyData. *)
Definition load_trad (trad : string) (d : bytes) : result tpriv :=
  if startswith "ecdh" trad then
    let n := drop_first "ecdh-" trad in
    let! _ := of_opt (curve_instance n) EInvalidKeyData in
    let! r := of_opt (kl_ec_rest K d) EInvalidKeyData in
    let! _ := guard (match r with [] => true | _ => false end) EInvalidKeyData in
    let! t := of_opt (kl_der_priv K d) EInvalidKeyData in
    match t with
    | DEc c x => let! _ := guard (String.eqb (lower (curve_name c)) n) EInvalidKeyData in Ok (SDh false c x)
    | _ => Err EInvalidKeyData
    end
  else if String.eqb trad "x25519" then (if (length d =? 32)%nat then Ok (SDh false X25519 d) else Err EInvalidKeyData)
  else if String.eqb trad "x448" then (if (length d =? 56)%nat then Ok (SDh false X448 d) else Err EInvalidKeyData)
  else if startswith "rsa" trad then
    let trad := drop_first "-pss" trad in
    let! r := of_opt (kl_rsa_rest K d) EInvalidKeyData in
    let! _ := guard (match r with [] => true | _ => false end) EInvalidKeyData in
    let! t := of_opt (kl_der_priv K d) EInvalidKeyData in
    match t with
    | DRsa k =>
        let! num := of_opt (rsa_num (drop_first "rsa" trad)) EInvalidKeyData in
        let! _ := guard (N.eqb num (t_rsa_bits TL (t_rsa_pub TL k))) EInvalidKeyData in
        Ok (SRsa k)
    | _ => Err EInvalidKeyData
    end
  else Err EInvalidKeyData.

(** pq_logic/combined_factory.py 451-500 (CombinedKeyFactory._load_composite_kem_from_private_bytes) *)
Definition load_comp_private (name : string) (d : bytes) : result kpriv :=
  let! (q, trad) := split_hybrid name in
  let n := pq_seed_len q in
  let! k := pq_from_private q (firstn n d) in
  let! t := load_trad trad (skipn n d) in
  let dhkem := startswith "composite-dhkem" name in
  let! _ := guard (negb (dhkem && match t with SRsa _ => true | _ => false end)) EInvalidKeyCombination in
  let key := mk_kpriv dhkem k t in
  let! _ := comp_priv_oid L key in
  Ok key.

(** pq_logic/keys/abstract_wrapper_keys.py 553-561 (HybridPublicKey.__eq__), pq_logic/keys/trad_kem_keys.py 249-256 (DHKEMPublicKey.__eq__),
    pq_logic/keys/abstract_wrapper_keys.py 470-479 (TradKEMPublicKey.__eq__) *)
Definition trad_pub_eqb (a b : tpub) : bool :=
  match a, b with
  | PDh _ _ x, PDh _ _ y => bytes_eqb x y
  | PRsa x, PRsa y => bytes_eqb x y
  | _, _ => false
  end.
Definition comp_pub_eqb (a b : kpub) : bool :=
  String.eqb (comp_name L a) (comp_name L b) && bytes_eqb (pp_bytes (kp_pq a)) (pp_bytes (kp_pq b)) && trad_pub_eqb (kp_trad a) (kp_trad b).

(** pq_logic/combined_factory.py 503-528 (CombinedKeyFactory._decode_composite_kem) with the name of the object identifier [o] *)
Definition load_comp (o : oid) (d : bytes) (pub : option bytes) : result kpriv :=
  let! name := of_opt (name_of o COMPOSITE_KEM_NAME_2_OID) EKeyError in
  let! k := load_comp_private name d in
  match pub with
  | None => Ok k
  | Some b =>
      let! o' := of_opt (get name COMPOSITE_KEM_NAME_2_OID) EKeyError in
      let! p := match load_comp_public o' b with Err EValueError => Err EInvalidKeyData | r => r end in
      let! _ := guard (comp_pub_eqb p (comp_public L k)) EMismatchingKey in
      Ok k
  end.

(** pq_logic/keys/composite_kem.py 221-232 (CompositeKEMPrivateKey._export_trad_private_key) *)
Definition export_trad (t : tpriv) : bytes :=
  match t with
  | SDh _ c d => if is_ec c then kl_ec_der K c d else d
  | SRsa k => kl_rsa_der K k
  end.
(** pq_logic/keys/composite_kem.py 234-240 (CompositeKEMPrivateKey._export_private_key), also private_bytes_raw *)
Definition comp_export (k : kpriv) : result bytes :=
  let! b := if has_numbers (ps_name (ks_pq k)) then pq_numbers (ks_pq k) else Ok (ps_priv (ks_pq k)) in
  Ok (b ++ export_trad (ks_trad k)).
(** pq_logic/keys/hybrid_key_factory.py 537-582 (HybridKeyFactory._save_keys_with_support_seed), composite branch *)
Definition save_comp (k : kpriv) (t : PqKeyModel.save_type) : result bytes :=
  let! _ := save_pq (ks_pq k) t in
  let has := has_numbers (ps_name (ks_pq k)) in
  let! b :=
    match t with
    | PqKeyModel.SEED => if has then pq_numbers (ks_pq k) else Ok (ps_priv (ks_pq k))
    | PqKeyModel.SEED_AND_RAW => if has then (let! s := pq_numbers (ks_pq k) in let! r := comp_export k in Ok (s ++ r))
                                 else Ok (ps_priv (ks_pq k))
    | PqKeyModel.RAW => Ok (ps_priv (ks_pq k))
    end in
  Ok (b ++ export_trad (ks_trad k)).

(** ** OneAsymmetricKey and SubjectPublicKeyInfo *)
Inductive hpriv := HX (k : xpriv) | HC (k : cpriv) | HK (k : kpriv).
Inductive hpub := QX (k : xpub) | QC (k : cpub) | QK (k : kpub).

(** get_oid(): pq_logic/keys/xwing.py 163-165 (XWingPrivateKey.get_oid) for X-Wing. *)
Definition priv_oid (k : hpriv) : result oid :=
  match k with
  | HX _ => Ok XWING_OID
  | HC k => chempat_oid L (chempat_public L k)
  | HK k => comp_priv_oid L k
  end.
Definition pub_oid (k : hpub) : result oid :=
  match k with QX _ => Ok XWING_OID | QC k => chempat_oid L k | QK k => comp_oid L k end.
Definition public (k : hpriv) : hpub :=
  match k with HX k => QX (xwing_public L k) | HC k => QC (chempat_public L k) | HK k => QK (comp_public L k) end.
Definition public_bytes (k : hpub) : bytes :=
  match k with QX k => xwing_public_bytes k | QC k => chempat_public_bytes k | QK k => comp_public_bytes k end.

(** pq_logic/combined_factory.py 354-382 (CombinedKeyFactory.load_public_key_from_spki) and
    pq_logic/combined_factory.py 327-351 (CombinedKeyFactory._load_hybrid_key_from_spki) for the identifiers of hybrid KEM keys;
    every other identifier is [EBadAlg] here. *)
Definition load_spki (o : oid) (data : bytes) : result hpub :=
  if bytes_eqb o XWING_OID then let! k := xwing_from_public L data in Ok (QX k)
  else match name_of o COMPOSITE_KEM_NAME_2_OID with
  | Some _ => let! k := load_comp_public o data in Ok (QK k)
  | None =>
      match name_of o CHEMPAT_NAME_2_OID with
      | Some n => let! k := chempat_from_public data n in Ok (QC k)
      | None => Err EBadAlg
      end
  end.
(** What public_bytes(DER, SubjectPublicKeyInfo) holds. *)
Definition save_spki (k : hpub) : result (oid * bytes) := let! o := pub_oid k in Ok (o, public_bytes k).

(** pq_logic/combined_factory.py 548-600 (CombinedKeyFactory.load_private_key_from_one_asym_key) and
    pq_logic/keys/hybrid_key_factory.py 430-478 (HybridKeyFactory.from_one_asym_key) for the identifiers of hybrid KEM keys; every
    other identifier is [EBadAlg] here. *)
Definition load_oak (o : oid) (version : Z) (d : bytes) (pub : option bytes) : result hpriv :=
  let! _ := guard ((version =? 0) || (version =? 1)) EInvalidKeyData in
  let! _ := guard (negb ((version =? 0) && match pub with Some _ => true | None => false end)) EInvalidKeyData in
  match name_of o COMPOSITE_KEM_NAME_2_OID with
  | Some _ => let! k := load_comp o d pub in Ok (HK k)
  | None =>
      if bytes_eqb o XWING_OID then let! k := load_xwing d pub in Ok (HX k)
      else match name_of o CHEMPAT_NAME_2_OID with
      | Some _ => let! k := load_chempat o d pub in Ok (HC k)
      | None => Err EBadAlg
      end
  end.
(** pq_logic/keys/hybrid_key_factory.py 585-628 (HybridKeyFactory.save_private_key_one_asym_key) and
    pq_logic/keys/hybrid_key_factory.py 492-510 (HybridKeyFactory._may_get_pub_key), without a public key given by the caller:
    identifier, privateKey and publicKey. *)
Definition save_oak (k : hpriv) (version : Z) (t : PqKeyModel.save_type) (include : bool) : result (oid * bytes * option bytes) :=
  let! o := priv_oid k in
  let! d := match k with
            | HX k => xwing_save t k
            | HC k => save_chempat k t
            | HK k => save_comp k t
            end in
  if include || (1 <=? version) then
    let! _ := pub_oid (public k) in
    Ok (o, d, Some (public_bytes (public k)))
  else Ok (o, d, None).
End Lib.
