(** Vocabulary of the properties of key objects. *)
From Verif Require Import PqKeyModel.
From Verif Require MlKemSpec MlDsaSpec SlhSpec.

(** What is assumed of the hash functions: their outputs have the length asked for and consist of bytes. *)
Definition good_env (E : env) : Prop :=
  MlKemSpec.hash_lengths (e_kem E) /\ MlDsaSpec.hash_lengths (e_dsa E) /\ SlhSpec.raw_ok (e_slh E).

(** Sizes of the standards (FIPS 203 Table 3, FIPS 204 Table 2, FIPS 205 Table 2): seed, private and public key. *)
Definition std_sizes (a : alg) : nat * nat * nat :=
  match a with
  | Kem K512 => (64, 1632, 800) | Kem K768 => (64, 2400, 1184) | Kem K1024 => (64, 3168, 1568)
  | Dsa D44 => (32, 2560, 1312) | Dsa D65 => (32, 4032, 1952) | Dsa D87 => (32, 4896, 2592)
  | Slh _ (S128s | S128f) => (48, 64, 32) | Slh _ (S192s | S192f) => (72, 96, 48) | Slh _ (S256s | S256f) => (96, 128, 64)
  end.
Definition std_seed (a : alg) : nat := fst (fst (std_sizes a)).
Definition std_priv (a : alg) : nat := snd (fst (std_sizes a)).
Definition std_pub (a : alg) : nat := snd (std_sizes a).

(** What a user can observe of a private key, apart from the seed: its algorithm, its private bytes, and the bytes of
    its public key. *)
Definition same_key (k k' : key) : Prop :=
  k_alg k = k_alg k' /\ k_priv k = k_priv k' /\ p_bytes (public_key k) = p_bytes (public_key k').

(** [k] is the key generated from the seed [s]. *)
Definition seeded (E : env) (a : alg) (s : bytes) (k : key) : Prop :=
  length s = std_seed a /\ from_seed E a s = Ok k.

(** The algorithms with a CHOICE in the privateKey field. *)
Definition is_ml (a : alg) : bool := match a with Slh _ _ => false | _ => true end.

(** The messages that the internal signing functions get (FIPS 204 Algorithms 2 and 4, FIPS 205 Algorithms 22 and 23). *)
Definition pure_message (ctx data : bytes) : bytes := [0%Z; Z.of_nat (length ctx)] ++ ctx ++ data.
Definition prehash_message (ctx oid digest : bytes) : bytes := [1%Z; Z.of_nat (length ctx)] ++ ctx ++ oid ++ digest.
(** Object identifiers of the hash functions in DER (FIPS 204 section 5.4.1, FIPS 205 section 10.2.2): 2.16.840.1.101.3.4.2.x. *)
Definition std_oid (h : hname) : option bytes :=
  let arc x := Some [6; 9; 96; 134; 72; 1; 101; 3; 4; 2; x]%Z in
  match h with HSha256 => arc 1%Z | HSha512 => arc 3%Z | HShake128 => arc 11%Z | HShake256 => arc 12%Z | HOther => None end.
(** The hash function that goes with an SLH-DSA parameter set: the smallest one that does not weaken it. *)
Definition std_slh_hash (f : SlhModel.family) (s : slh_set) : hname :=
  match f, s with
  | SlhModel.SHA2, S128s | SlhModel.SHA2, S128f => HSha256
  | SlhModel.SHAKE, S128s | SlhModel.SHAKE, S128f => HShake128
  | SlhModel.SHA2, _ => HSha512
  | SlhModel.SHAKE, _ => HShake256
  end.
(** The string signed for [data], which the caller has hashed already if [pre]: [h = None] means no pre-hashing. *)
Definition signed_message (E : env) (h : option hname) (pre : bool) (ctx data : bytes) : option bytes :=
  match h with
  | None => Some (pure_message ctx data)
  | Some h => option_map (fun oid => prehash_message ctx oid (if pre then data else e_hash E h data)) (std_oid h)
  end.
(** The hash algorithm in effect when signing: ML-DSA supports SHA-512 only, SLH-DSA that of the parameter set. *)
Definition dsa_effective (h : option hname) : option hname := match h with Some HSha512 => h | _ => None end.
Definition slh_effective (f : SlhModel.family) (s : slh_set) (h : option hname) : option hname :=
  match h with
  | Some x => if hname_eqb x (std_slh_hash f s) then h else None
  | None => None
  end.
(** What the privateKey field says, for the save type [t] of the key [k] with seed [s]. *)
Definition said (a : alg) (x : bytes) (t : save_type) (s r : bytes) : Prop :=
  if is_ml a
  then dec_choice a x = POk (match t with SEED => CSeed s | RAW => CRaw r | SEED_AND_RAW => CBoth s r end, [])
  else x = match t with SEED => s | RAW => r | SEED_AND_RAW => s ++ r end.
