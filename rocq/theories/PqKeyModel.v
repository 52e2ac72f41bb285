(** Model of the post-quantum key objects for ML-KEM, ML-DSA and SLH-DSA: creation from seeds
    and byte strings, signing and verification through key objects, export to and import from
    PKCS#8 OneAsymmetricKey structures.
    Code: pq_logic/keys/kem_keys.py, sig_keys.py, abstract_wrapper_keys.py, abstract_pq.py,
    pq_key_factory.py, pq_logic/combined_factory.py, pq_logic/hybrid_structures.py.
    Without the optional liboqs library (oqs is None).  Algorithm names are an enumeration, so
    the checks on unknown names are not modelled.  The outer DER coding of OneAsymmetricKey is
    trusted: a structure is the record [oak]; the coding of the privateKey field of ML-KEM and
    ML-DSA keys, which decides how a byte string is read, is modelled byte by byte. *)
From Verif Require Export Prelude.
From Verif Require MlKemModel MlDsaModel SlhModel.
Local Open Scope Z_scope.

(** ** Names and sizes *)
Inductive kem_name := K512 | K768 | K1024.
Inductive dsa_name := D44 | D65 | D87.
Inductive slh_set := S128s | S128f | S192s | S192f | S256s | S256f.
Inductive alg := Kem (a : kem_name) | Dsa (a : dsa_name) | Slh (f : SlhModel.family) (s : slh_set).

(** The parameter sets the names select: ML_KEM(name), ML_DSA(name), SLH_DSA_PARAMS[name]. *)
Definition kem_params (a : kem_name) : MlKemModel.params :=
  match a with K512 => MlKemModel.ml_kem_512 | K768 => MlKemModel.ml_kem_768 | K1024 => MlKemModel.ml_kem_1024 end.
Definition dsa_params (a : dsa_name) : MlDsaModel.params :=
  match a with D44 => MlDsaModel.ml_dsa_44 | D65 => MlDsaModel.ml_dsa_65 | D87 => MlDsaModel.ml_dsa_87 end.
Definition slh_params (f : SlhModel.family) (s : slh_set) : SlhModel.params :=
  match s with
  | S128s => SlhModel.p128s f | S128f => SlhModel.p128f f | S192s => SlhModel.p192s f
  | S192f => SlhModel.p192f f | S256s => SlhModel.p256s f | S256f => SlhModel.p256f f
  end.

(** ML_KEM_PRIVATE_KEY_SIZE, kem_keys.py 49; MLKEMPublicKey.key_size, kem_keys.py 112-115;
    [k] of pq_logic/keys/kem_keys.py 174-184 (MLKEMPrivateKey.public_key). *)
Definition kem_sk_size (a : kem_name) : nat := match a with K768 => 2400 | K512 => 1632 | K1024 => 3168 end.
Definition kem_pk_size (a : kem_name) : nat := match a with K768 => 1184 | K512 => 800 | K1024 => 1568 end.
Definition kem_k (a : kem_name) : nat := match a with K768 => 3 | K512 => 2 | K1024 => 4 end.
(** ML_DSA_PRIVATE_KEY_SIZE, sig_keys.py 191; MLDSAPublicKey.key_size, sig_keys.py 95-99. *)
Definition dsa_sk_size (a : dsa_name) : nat := match a with D44 => 2560 | D65 => 4032 | D87 => 4896 end.
Definition dsa_pk_size (a : dsa_name) : nat := match a with D44 => 1312 | D65 => 1952 | D87 => 2592 end.

(** The hash functions: those inside the three algorithms, and resources/oid_mapping.py 235-246 (compute_hash).
    The names are those that occur in a name of SLH_DSA_PRE_HASH_NAME_2_OID; [HOther] is any other. *)
Inductive hname := HSha256 | HSha512 | HShake128 | HShake256 | HOther.
Record env := { e_kem : MlKemModel.hashes; e_dsa : MlDsaModel.hashes; e_slh : SlhModel.raw;
  e_hash : hname -> bytes -> bytes }.

(** A private key object: [_private_key_bytes], [_public_key_bytes], [_seed].
    pq_logic/keys/abstract_wrapper_keys.py 371-389 (PQPrivateKey.__init__). *)
Record key := { k_alg : alg; k_priv : bytes; k_pub : option bytes; k_seed : option bytes }.
(** A public key object.  pq_logic/keys/abstract_wrapper_keys.py 302-310 (PQPublicKey.__init__). *)
Record pkey := { p_alg : alg; p_bytes : bytes }.

(** [type(other) is type(self)]: the class of a key does not depend on the parameter set. *)
Definition same_class (a b : alg) : bool :=
  match a, b with Kem _, Kem _ | Dsa _, Dsa _ | Slh _ _, Slh _ _ => true | _, _ => false end.
(** pq_logic/keys/abstract_wrapper_keys.py 312-320 (PQPublicKey.__eq__). *)
Definition pkey_eq (a b : pkey) : bool := same_class (p_alg a) (p_alg b) && bytes_eqb (p_bytes a) (p_bytes b).
(** pq_logic/keys/abstract_wrapper_keys.py 96-100 (BaseKey.__eq__): private keys do not override it. *)
Definition key_eq (a b : key) : bool := same_class (k_alg a) (k_alg b).

(** pyasn1's DER decoder on these structures.  [PConstraint] is ValueConstraintError (a size other than the fixed
    one), [PBad] any other PyAsn1Error. *)
Inductive parsed (A : Type) := POk (a : A) | PBad | PConstraint.
Arguments POk {A} a.
Arguments PBad {A}.
Arguments PConstraint {A}.
Definition pbind {A B} (r : parsed A) (f : A -> parsed B) : parsed B :=
  match r with POk a => f a | PBad => PBad | PConstraint => PConstraint end.

Section Keys.
Variable E : env.

(** ** ML-KEM *)
(** pq_logic/keys/kem_keys.py 272-283 (MLKEMPrivateKey._from_seed) and
    pq_logic/keys/abstract_wrapper_keys.py 417-425 (PQPrivateKey.from_seed). *)
Definition kem_from_seed (a : kem_name) (seed : bytes) : result key :=
  let! _ := guard (length seed =? 64)%nat EValueError in
  let! (ek, dk) := MlKemModel.keygen_internal (e_kem E) (kem_params a) (firstn 32 seed) (skipn 32 seed) in
  Ok {| k_alg := Kem a; k_priv := dk; k_pub := Some ek; k_seed := Some seed |}.
(** pq_logic/keys/kem_keys.py 134-148 (MLKEMPrivateKey._initialize_key) with private_bytes given: nothing is computed. *)
Definition kem_new (a : kem_name) (priv : bytes) (pub seed : option bytes) : key :=
  {| k_alg := Kem a; k_priv := priv; k_pub := pub; k_seed := seed |}.
(** pq_logic/keys/kem_keys.py 200-229 (MLKEMPrivateKey.from_private_bytes). *)
Definition kem_from_private_bytes (a : kem_name) (data : bytes) : result key :=
  if (length data =? 64)%nat then kem_from_seed a data
  else if (length data =? kem_sk_size a + 64)%nat then
    let seed := firstn 64 data in
    let private_key := skipn 64 data in
    let key := kem_new a private_key None (Some seed) in
    let! _ := guard (bytes_eqb (k_priv key) private_key) EInvalidKeyData in
    Ok key
  else if (length data =? kem_sk_size a)%nat then Ok (kem_new a data None None)
  else Err EInvalidKeyData.

(** ** ML-DSA *)
(** pq_logic/keys/sig_keys.py 197-229 (MLDSAPrivateKey._derive_public_key). *)
Definition dsa_derive_public_key (a : dsa_name) (sk : bytes) : result bytes :=
  let p := dsa_params a in
  let! s := MlDsaModel.sk_decode p sk in
  let! ah := MlDsaModel.expand_a (e_dsa E) p (MlDsaModel.sk_rho s) in
  let s1h := map MlDsaModel.ntt (MlDsaModel.sk_s1 s) in
  let t := MlDsaModel.matrix_vector_ntt p ah s1h in
  let t := map (fun i => MlDsaModel.padd (MlDsaModel.ntt_inverse (MlDsaModel.nthp i t)) (MlDsaModel.nthp i (MlDsaModel.sk_s2 s)))
             (seq 0 (length t)) in
  let '(t1, _) := MlDsaModel.power2round p t in
  MlDsaModel.pk_encode p (MlDsaModel.sk_rho s) t1.
(** pq_logic/keys/sig_keys.py 241-260 (MLDSAPrivateKey._initialize_key) with private_bytes given. *)
Definition dsa_new (a : dsa_name) (priv : bytes) (pub seed : option bytes) : result key :=
  match pub with
  | None => let! pk := dsa_derive_public_key a priv in
            Ok {| k_alg := Dsa a; k_priv := priv; k_pub := Some pk; k_seed := seed |}
  | Some pk => Ok {| k_alg := Dsa a; k_priv := priv; k_pub := Some pk; k_seed := seed |}
  end.
(** pq_logic/keys/sig_keys.py 273-283 (MLDSAPrivateKey.from_seed) for a seed that is not empty (an empty one is replaced by
    a random one). *)
Definition dsa_from_seed (a : dsa_name) (seed : bytes) : result key :=
  let! (pk, sk) := MlDsaModel.keygen_internal (e_dsa E) (dsa_params a) seed in
  Ok {| k_alg := Dsa a; k_priv := sk; k_pub := Some pk; k_seed := Some seed |}.
(** pq_logic/keys/sig_keys.py 286-314 (MLDSAPrivateKey.from_private_bytes). *)
Definition dsa_from_private_bytes (a : dsa_name) (data : bytes) : result key :=
  if (length data =? 32)%nat then dsa_from_seed a data
  else if (length data =? dsa_sk_size a)%nat then dsa_new a data None None
  else if (length data =? dsa_sk_size a + 32)%nat then
    let seed := firstn 32 data in
    let! seed_key := dsa_from_seed a seed in
    let data := skipn 32 data in
    let! _ := guard (bytes_eqb (k_priv seed_key) data) EInvalidKeyData in
    Ok seed_key
  else Err EInvalidKeyData.

(** ** SLH-DSA *)
Definition slh_n (f : SlhModel.family) (s : slh_set) : nat := SlhModel.n (slh_params f s).
(** pq_logic/keys/sig_keys.py 602-616 (SLHDSAPrivateKey._from_seed) and pq_logic/keys/sig_keys.py 734-737 (SLHDSAPrivateKey.from_seed). *)
Definition slh_from_seed (f : SlhModel.family) (s : slh_set) (seed : bytes) : result key :=
  let n := slh_n f s in
  let! _ := guard (length seed =? 3 * n)%nat EValueError in
  let! (pk, sk) := SlhModel.slh_keygen_internal (e_slh E) (slh_params f s)
                     (firstn n seed) (slice n (2 * n) seed) (skipn (2 * n) seed) in
  Ok {| k_alg := Slh f s; k_priv := sk; k_pub := Some pk; k_seed := Some seed |}.
(** pq_logic/keys/sig_keys.py 576-593 (SLHDSAPrivateKey._derive_public_key). *)
Definition slh_derive_public_key (f : SlhModel.family) (s : slh_set) (priv : bytes) : result bytes :=
  let n := slh_n f s in
  let! _ := guard (4 * n <=? length priv)%nat EValueError in
  Ok (slice (2 * n) (3 * n) priv ++ slice (3 * n) (4 * n) priv).
(** pq_logic/keys/sig_keys.py 618-641 (SLHDSAPrivateKey._initialize_key) with private_bytes given. *)
Definition slh_new (f : SlhModel.family) (s : slh_set) (priv : bytes) (pub seed : option bytes) : result key :=
  match pub with
  | None => let! pk := slh_derive_public_key f s priv in
            Ok {| k_alg := Slh f s; k_priv := priv; k_pub := Some pk; k_seed := seed |}
  | Some pk => Ok {| k_alg := Slh f s; k_priv := priv; k_pub := Some pk; k_seed := seed |}
  end.
(** pq_logic/keys/sig_keys.py 740-772 (SLHDSAPrivateKey.from_private_bytes); the throw-away random key that the code
    generates first to find [n] is left out. *)
Definition slh_from_private_bytes (f : SlhModel.family) (s : slh_set) (data : bytes) : result key :=
  let n := slh_n f s in
  if (length data =? 3 * n)%nat then slh_from_seed f s data
  else if (length data =? 7 * n)%nat then
    let seed := firstn (3 * n) data in
    let private_key := slice (3 * n) (7 * n) data in
    let! s_key := slh_from_seed f s seed in
    let! _ := guard (bytes_eqb (k_priv s_key) private_key) EInvalidKeyData in
    Ok s_key
  else if negb (4 * n =? length data)%nat then Err EInvalidKeyData
  else slh_new f s data None None.

(** ** Dispatch on the class *)
Definition from_private_bytes (a : alg) (data : bytes) : result key :=
  match a with
  | Kem a => kem_from_private_bytes a data
  | Dsa a => dsa_from_private_bytes a data
  | Slh f s => slh_from_private_bytes f s data
  end.
Definition from_seed (a : alg) (seed : bytes) : result key :=
  match a with Kem a => kem_from_seed a seed | Dsa a => dsa_from_seed a seed | Slh f s => slh_from_seed f s seed end.
(** The constructor with private_bytes given. *)
Definition new_key (a : alg) (priv : bytes) (pub seed : option bytes) : result key :=
  match a with
  | Kem a => Ok (kem_new a priv pub seed)
  | Dsa a => dsa_new a priv pub seed
  | Slh f s => slh_new f s priv pub seed
  end.
(** seed_size of the classes: kem_keys.py 260-269, sig_keys.py 397-406 and 797-807. *)
Definition seed_size (a : alg) : nat := match a with Kem _ => 64 | Dsa _ => 32 | Slh f s => 3 * slh_n f s end.
(** key_size of the private key classes: kem_keys.py 250-253, sig_keys.py 333-336 and 571-574. *)
Definition priv_size (a : alg) : nat := match a with Kem a => kem_sk_size a | Dsa a => dsa_sk_size a | Slh f s => 4 * slh_n f s end.
(** key_size of the public key classes: kem_keys.py 112-115, sig_keys.py 95-99 and 443-446. *)
Definition pub_size (a : alg) : nat := match a with Kem a => kem_pk_size a | Dsa a => dsa_pk_size a | Slh f s => 2 * slh_n f s end.

(** public_key() of the three classes: pq_logic/keys/kem_keys.py 174-184 (MLKEMPrivateKey.public_key),
    pq_logic/keys/sig_keys.py 344-349 (MLDSAPrivateKey.public_key), pq_logic/keys/sig_keys.py 663-668 (SLHDSAPrivateKey.public_key).
    The public bytes of an ML-DSA or SLH-DSA key are always set. *)
Definition public_key (k : key) : pkey :=
  {| p_alg := k_alg k;
     p_bytes := match k_pub k with
                | Some b => b
                | None => match k_alg k with
                          | Kem a => slice (384 * kem_k a) (768 * kem_k a + 32) (k_priv k)
                          | _ => []
                          end
                end |}.
(** from_public_bytes: pq_logic/keys/abstract_pq.py 190-195 (PQKEMPublicKey.from_public_bytes),
    pq_logic/keys/sig_keys.py 177-188 (MLDSAPublicKey.from_public_bytes), pq_logic/keys/sig_keys.py 553-563 (SLHDSAPublicKey.from_public_bytes). *)
Definition from_public_bytes (a : alg) (data : bytes) : result pkey :=
  let! _ := guard (length data =? pub_size a)%nat (match a with Slh _ _ => EValueError | _ => EInvalidKeyData end) in
  Ok {| p_alg := a; p_bytes := data |}.

(** ** Encapsulation through key objects *)
(** pq_logic/keys/kem_keys.py 100-105 (MLKEMPublicKey.encaps); [m] is os.urandom(32).  Returns (shared secret, ciphertext). *)
Definition kem_encaps (a : kem_name) (pub m : bytes) : result (bytes * bytes) :=
  MlKemModel.encaps_internal (e_kem E) (kem_params a) pub m.
(** pq_logic/keys/kem_keys.py 231-243 (MLKEMPrivateKey.decaps). *)
Definition kem_decaps (a : kem_name) (priv ct : bytes) : result bytes :=
  match MlKemModel.decaps_internal (e_kem E) (kem_params a) priv ct with
  | Err EIndexError => Err EValueError
  | r => r
  end.

(** ** Signatures through key objects *)
(** The DER encoding of resources/oid_mapping.py 106-120 (sha_alg_name_to_oid): 2.16.840.1.101.3.4.2.x. *)
Definition hash_oid (h : hname) : result bytes :=
  match h with
  | HSha256 => Ok [6; 9; 96; 134; 72; 1; 101; 3; 4; 2; 1]
  | HSha512 => Ok [6; 9; 96; 134; 72; 1; 101; 3; 4; 2; 3]
  | HShake128 => Ok [6; 9; 96; 134; 72; 1; 101; 3; 4; 2; 11]
  | HShake256 => Ok [6; 9; 96; 134; 72; 1; 101; 3; 4; 2; 12]
  | HOther => Err EValueError
  end.
(** pq_logic/keys/sig_keys.py 143-163 (MLDSAPublicKey.check_hash_alg). *)
Definition dsa_check_hash (h : option hname) (allow_failure : bool) : result (option hname) :=
  match h with
  | None => Ok None
  | Some HSha512 => Ok (Some HSha512)
  | Some _ => if allow_failure then Ok None else Err EValueError
  end.
(** The pre-hashed message of sign and verify, sig_keys.py 390 and 135, 725 and 546.
    [integer_to_bytes(len(ctx), 1)] is [len(ctx)] because len(ctx) <= 255 has been checked. *)
Definition pre_mp (ctx oid data : bytes) : bytes := [1; Z.of_nat (length ctx)] ++ ctx ++ oid ++ data.
(** pq_logic/keys/sig_keys.py 351-396 (MLDSAPrivateKey.sign); [rnd] is os.urandom(32), [fuel] bounds the
    rejection loop ([None]: no result within the bound). *)
Definition dsa_sign (a : dsa_name) (fuel : nat) (priv data : bytes) (hash_alg : option hname) (ctx : bytes)
    (is_prehashed : bool) (rnd : bytes) : option (result bytes) :=
  if (255 <? length ctx)%nat then Some (Err EValueError)
  else
    match dsa_check_hash hash_alg true with
    | Err e => Some (Err e)
    | Ok None =>
        match MlDsaModel.sign (e_dsa E) (dsa_params a) fuel priv data ctx None with
        | None => None
        | Some (Ok (Some (x :: s))) => Some (Ok (x :: s))
        | Some (Ok _) => Some (Err EValueError)
        | Some (Err e) => Some (Err e)
        end
    | Ok (Some h) =>
        match hash_oid h with
        | Err e => Some (Err e)
        | Ok oid =>
            let pre_hashed := if is_prehashed then data else e_hash E h data in
            match MlDsaModel.sign_internal (e_dsa E) (dsa_params a) fuel priv (pre_mp ctx oid pre_hashed) rnd with
            | None => None
            | Some (Ok []) => Some (Err EValueError)
            | Some r => Some r
            end
        end
    end.
(** pq_logic/keys/sig_keys.py 101-141 (MLDSAPublicKey.verify): [Ok tt] when it returns. *)
Definition dsa_verify (a : dsa_name) (pub sg data : bytes) (hash_alg : option hname) (is_prehashed : bool)
    (ctx : bytes) : result unit :=
  let! _ := guard (negb (255 <? length ctx)%nat) EValueError in
  let! h := dsa_check_hash hash_alg false in
  let! ok := match h with
             | None => MlDsaModel.verify (e_dsa E) (dsa_params a) pub data sg ctx
             | Some h => let! oid := hash_oid h in
                         let data := if is_prehashed then data else e_hash E h data in
                         MlDsaModel.verify_internal (e_dsa E) (dsa_params a) pub (pre_mp ctx oid data) sg
             end in
  guard ok EInvalidSignature.

(** SLH_DSA_PRE_HASH_NAME_2_OID (oidutils.py 598-611): the only pre-hash function of a parameter set. *)
Definition slh_hash_of (f : SlhModel.family) (s : slh_set) : hname :=
  match f, s with
  | SlhModel.SHA2, (S128s | S128f) => HSha256 | SlhModel.SHA2, _ => HSha512
  | SlhModel.SHAKE, (S128s | S128f) => HShake128 | SlhModel.SHAKE, _ => HShake256
  end.
Definition hname_eqb (x y : hname) : bool :=
  match x, y with
  | HSha256, HSha256 | HSha512, HSha512 | HShake128, HShake128 | HShake256, HShake256 | HOther, HOther => true
  | _, _ => false
  end.
(** pq_logic/keys/sig_keys.py 469-485 (SLHDSAPublicKey.check_hash_alg). *)
Definition slh_check_hash (f : SlhModel.family) (s : slh_set) (h : option hname) : option hname :=
  match h with
  | None => None
  | Some h => if hname_eqb h (slh_hash_of f s) then Some h else None
  end.
(** pq_logic/keys/sig_keys.py 690-731 (SLHDSAPrivateKey.sign). *)
Definition slh_sign (f : SlhModel.family) (s : slh_set) (priv data : bytes) (hash_alg : option hname) (ctx : bytes)
    (is_prehashed : bool) : result bytes :=
  let h := slh_check_hash f s hash_alg in
  let! _ := guard (negb (255 <? length ctx)%nat) EValueError in
  let! sg := match h with
             | None => let! o := SlhModel.slh_sign (e_slh E) (slh_params f s) data ctx priv None in
                       Ok (match o with Some x => x | None => [] end)
             | Some h => let! oid := hash_oid h in
                         let data := if is_prehashed then data else e_hash E h data in
                         SlhModel.slh_sign_internal (e_slh E) (slh_params f s) (pre_mp ctx oid data) priv None
             end in
  let! _ := guard (match sg with [] => false | _ => true end) EValueError in
  Ok sg.
(** pq_logic/keys/sig_keys.py 507-550 (SLHDSAPublicKey.verify). *)
Definition slh_verify (f : SlhModel.family) (s : slh_set) (pub sg data : bytes) (hash_alg : option hname)
    (is_prehashed : bool) (ctx : bytes) : result unit :=
  let h := slh_check_hash f s hash_alg in
  let! _ := guard (negb (255 <? length ctx)%nat) EValueError in
  let! ok := match h with
             | None => SlhModel.slh_verify (e_slh E) (slh_params f s) data sg ctx pub
             | Some h => let! oid := hash_oid h in
                         let data := if is_prehashed then data else e_hash E h data in
                         SlhModel.slh_verify_internal (e_slh E) (slh_params f s) (pre_mp ctx oid data) sg pub
             end in
  guard ok EInvalidSignature.

(** ** The privateKey field of ML-KEM and ML-DSA keys *)
(** pyasn1's DER encoder: tag, definite length in the minimal form, content.  Lengths of 65536 and more do
    not occur. *)
Definition der_len (n : nat) : bytes :=
  if (n <? 128)%nat then [Z.of_nat n]
  else if (n <? 256)%nat then [129; Z.of_nat n]
  else [130; Z.of_nat n / 256; Z.of_nat n mod 256].
Definition tlv (t : Z) (c : bytes) : bytes := t :: der_len (length c) ++ c.

(** MLDSA44PrivateKeyASN1 ... MLKEM1024PrivateKeyASN1 (hybrid_structures.py 252-345): a CHOICE of
    [0] seed, expandedKey and both. *)
Inductive choice := CSeed (s : bytes) | CRaw (r : bytes) | CBoth (s r : bytes).
(** encoder.encode on these structures; a value of the wrong size is refused by pyasn1. *)
Definition enc_choice (a : alg) (c : choice) : result bytes :=
  match c with
  | CSeed s => let! _ := guard (length s =? seed_size a)%nat EPyAsn1 in Ok (tlv 128 s)
  | CRaw r => let! _ := guard (length r =? priv_size a)%nat EPyAsn1 in Ok (tlv 4 r)
  | CBoth s r =>
      let! _ := guard ((length s =? seed_size a)%nat && (length r =? priv_size a)%nat) EPyAsn1 in
      Ok (tlv 48 (tlv 4 s ++ tlv 4 r))
  end.

(** Definite length octets: short form, or [n] octets big-endian (a non-minimal length is accepted); the indefinite
    form is refused by the DER decoder. *)
Definition dec_len (s : bytes) : parsed (Z * bytes) :=
  match s with
  | [] => PBad
  | x :: r =>
      if x <? 128 then POk (x, r)
      else if x =? 128 then PBad
      else let n := Z.to_nat (x - 128) in
           if (length r <? n)%nat then PBad
           else POk (fold_left (fun t y => 256 * t + y) (firstn n r) 0, skipn n r)
  end.
(** An OCTET STRING of fixed size with tag octet [t]. *)
Definition dec_octets (t : Z) (size : nat) (s : bytes) : parsed (bytes * bytes) :=
  match s with
  | [] => PBad
  | x :: r =>
      if negb (x =? t) then PBad
      else pbind (dec_len r) (fun '(l, r) =>
        if Z.of_nat (length r) <? l then PBad
        else if negb (l =? Z.of_nat size) then PConstraint
        else POk (firstn size r, skipn size r))
  end.
(** decoder.decode(private_bytes, asn1Spec=structure()): the value and the rest. *)
Definition dec_choice (a : alg) (s : bytes) : parsed (choice * bytes) :=
  match s with
  | [] => PBad
  | x :: r =>
      if x =? 128 then pbind (dec_octets 128 (seed_size a) s) (fun '(v, r) => POk (CSeed v, r))
      else if x =? 4 then pbind (dec_octets 4 (priv_size a) s) (fun '(v, r) => POk (CRaw v, r))
      else if x =? 48 then
        pbind (dec_len r) (fun '(l, r) =>
        if l <=? 0 then PBad else
        pbind (dec_octets 4 (seed_size a) r) (fun '(sd, r1) =>
        if l <=? Z.of_nat (length r - length r1) then PBad else
        pbind (dec_octets 4 (priv_size a) r1) (fun '(rw, r2) =>
        if Z.of_nat (length r - length r2) =? l then POk (CBoth sd rw, r2) else PBad)))
      else PBad
  end.

(** ** OneAsymmetricKey *)
(** The algorithm identifier: a plain one, a pre-hash one (PQ_SIG_PRE_HASH_NAME_2_OID), or anything that
    PQ_OID_2_NAME does not contain. *)
Inductive oid := Plain (a : alg) | PreHash (a : alg) | Unknown.
Record oak := { o_version : Z; o_oid : oid; o_priv : bytes; o_pub : option bytes }.

(** pq_logic/keys/pq_key_factory.py 213-273 (PQKeyFactory.load_ml_private_key_from_one_asym_key) without must_be_type.
    [inl tt]: a PyAsn1Error other than ValueConstraintError. *)
Definition check_pub (k : key) (pub : option bytes) : result key :=
  match pub with
  | None => Ok k
  | Some b => let! p := from_public_bytes (k_alg k) b in
              let! _ := guard (pkey_eq (public_key k) p) EMismatchingKey in Ok k
  end.
Definition load_ml (a : alg) (prehash : bool) (priv : bytes) (pub : option bytes) : unit + result key :=
  if prehash then inr (Err ENotImplemented)
  else
    match dec_choice a priv with
    | PBad => inl tt
    | PConstraint => inr (Err EInvalidKeyData)
    | POk (c, rest) =>
        inr (let! _ := guard (match rest with [] => true | _ => false end) EInvalidKeyData in
             let! k := match c with
                       | CBoth s r => let! k := from_private_bytes a s in
                                      let! k2 := from_private_bytes a r in
                                      let! _ := guard (key_eq k k2) EMismatchingKey in Ok k
                       | CSeed s => from_private_bytes a s
                       | CRaw r => from_private_bytes a r
                       end in
             check_pub k pub)
    end.
(** pq_logic/keys/pq_key_factory.py 68-97 (_load_and_validate). *)
Definition load_and_validate (a : alg) (priv : bytes) (pub : option bytes) : result key :=
  let! k := from_private_bytes a priv in
  let! _ := match pub with
            | Some (x :: b) => let! p := from_public_bytes a (x :: b) in
                               guard (pkey_eq (public_key k) p) EMismatchingKey
            | _ => Ok tt
            end in
  new_key a (k_priv k) pub (k_seed k).
(** pq_logic/keys/pq_key_factory.py 541-607 (PQKeyFactory.from_one_asym_key) and
    pq_logic/keys/pq_key_factory.py 100-127 (_load_key_from_one_asym_key), must_be_version_2 = False. *)
Definition from_one_asym_key (o : oak) : result key :=
  let! _ := guard ((o_version o =? 0) || (o_version o =? 1)) EInvalidKeyData in
  let load := fun a prehash =>
    match a with
    | Slh _ _ => load_and_validate a (o_priv o) (o_pub o)
    | _ => match load_ml a prehash (o_priv o) (o_pub o) with
           | inr r => r
           | inl _ => load_and_validate a (o_priv o) (o_pub o)
           end
    end in
  match o_oid o with
  | Unknown => Err EKeyError
  | Plain a => load a false
  | PreHash a => load a true
  end.
(** pq_logic/combined_factory.py 548-600 (CombinedKeyFactory.load_private_key_from_one_asym_key) for the identifiers modelled here
    ([Unknown] stands for the other key types, left out); must_be_version_2 is not passed on. *)
Definition combined_load (o : oak) (must_be_version_2 : bool) : result key :=
  let! _ := guard ((o_version o =? 0) || (o_version o =? 1)) EInvalidKeyData in
  let! _ := guard (negb ((o_version o =? 0) && match o_pub o with Some _ => true | None => false end)) EInvalidKeyData in
  from_one_asym_key o.

Inductive save_type := SEED | RAW | SEED_AND_RAW.
(** private_numbers of the three classes: kem_keys.py 150-158, sig_keys.py 231-239 and 595-599. *)
Definition private_numbers (k : key) : result bytes :=
  match k_seed k with Some s => Ok s | None => Err EValueError end.
(** pq_logic/keys/pq_key_factory.py 686-714 (PQKeyFactory._prepare_ml_private_key) and
    pq_logic/keys/pq_key_factory.py 717-745 (PQKeyFactory.save_keys_with_support_seed) with invalid_key = False. *)
Definition save_private (k : key) (t : save_type) : result bytes :=
  match k_alg k with
  | Slh _ _ => match t with SEED => private_numbers k | _ => Ok (k_priv k) end
  | a => match t with
         | SEED => let! s := private_numbers k in enc_choice a (CSeed s)
         | RAW => enc_choice a (CRaw (k_priv k))
         | SEED_AND_RAW => let! s := private_numbers k in enc_choice a (CBoth s (k_priv k))
         end
  end.
(** pq_logic/keys/pq_key_factory.py 783-834 (PQKeyFactory.save_private_key_one_asym_key) with public_key = None, invalid_key =
    False; pq_logic/keys/pq_key_factory.py 748-780 (PQKeyFactory._may_get_pub_key). *)
Definition save_one_asym_key (k : key) (version : Z) (t : save_type) (include_public_key : bool) : result oak :=
  let! priv := save_private k t in
  Ok {| o_version := version; o_oid := Plain (k_alg k); o_priv := priv;
        o_pub := if include_public_key || (version =? 1) then Some (p_bytes (public_key k)) else None |}.
(** pq_logic/keys/abstract_wrapper_keys.py 439-450 (PQPrivateKey._to_one_asym_key) and
    pq_logic/keys/abstract_wrapper_keys.py 456-458 (PQPrivateKey._export_private_key): what private_bytes(DER, PKCS8) writes. *)
Definition to_one_asym_key (k : key) : oak :=
  {| o_version := 1; o_oid := Plain (k_alg k);
     o_priv := match k_seed k with Some (x :: s) => x :: s | _ => k_priv k end;
     o_pub := Some (p_bytes (public_key k)) |}.
(** pq_logic/keys/pq_key_factory.py 384-396 (PQKeyFactory.from_private_bytes) once the name is known. *)
Definition factory_from_private_bytes (a : alg) (data : bytes) : result key :=
  from_private_bytes a (firstn (priv_size a) data).
(** pq_logic/keys/pq_key_factory.py 399-417 (PQKeyFactory.from_public_bytes) once the name is known. *)
Definition factory_from_public_bytes (a : alg) (data : bytes) (allow_rest : bool) : result (pkey * bytes) :=
  let! k := from_public_bytes a (firstn (pub_size a) data) in
  let! _ := guard (allow_rest || (length data =? pub_size a)%nat) EInvalidKeyData in
  Ok (k, skipn (pub_size a) data).
(** pq_logic/keys/pq_key_factory.py 873-914 (PQKeyFactory.validate_pq_key_export) and
    pq_logic/keys/pq_key_factory.py 837-870 (PQKeyFactory.validate_ml_key_export_single); resources/asn1utils.py 736-769 (try_decode_pyasn1)
    turns every PyAsn1Error into BadAsn1Data. *)
Definition validate_export (k : key) (data : bytes) (t : save_type) : result unit :=
  match k_alg k with
  | Slh _ _ =>
      match t with
      | SEED => let! s := private_numbers k in guard (bytes_eqb data s) EInvalidKeyData
      | SEED_AND_RAW => let! s := private_numbers k in guard (bytes_eqb data (s ++ k_priv k)) EInvalidKeyData
      | RAW => guard (bytes_eqb data (k_priv k)) EInvalidKeyData
      end
  | a =>
      match dec_choice a data with
      | POk (c, rest) =>
          let! _ := guard (match rest with [] => true | _ => false end) EInvalidKeyData in
          let! _ := guard (match c, t with CSeed _, SEED | CRaw _, RAW | CBoth _ _, SEED_AND_RAW => true | _, _ => false end)
                          EInvalidKeyData in
          let! num := private_numbers k in
          let! _ := match c with
                    | CSeed s | CBoth s _ => guard (bytes_eqb s num) EInvalidKeyData
                    | CRaw _ => Ok tt
                    end in
          match c with
          | CRaw r | CBoth _ r => guard (bytes_eqb r (k_priv k)) EInvalidKeyData
          | CSeed _ => Ok tt
          end
      | _ => Err EBadAsn1Data
      end
  end.
End Keys.
