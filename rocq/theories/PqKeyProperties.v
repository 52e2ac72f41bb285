(** Properties C57-C62: ML-KEM, ML-DSA and SLH-DSA key objects. *)
From Verif Require Import PqKeyModel PqKeySpec PqKeyProofs PqKeyMore PqKeyUse PqKeyExact LatFacts.
From Verif Require MlKemWitness MlDsaWitness SlhWitness MlDsaSig MlDsaTop MlDsaEnc MlDsaProperties MlKemModel MlDsaModel SlhModel.
Local Open Scope Z_scope.

(** Concrete hash functions and one generated key of each kind. *)
Definition toyE : env := {| e_kem := MlKemWitness.toy; e_dsa := MlDsaWitness.toy; e_slh := SlhWitness.toy;
  e_hash := fun _ x => MlDsaWitness.toy_hash 64 x |}.
Lemma toyE_good : good_env toyE.
Proof. split; [exact MlKemWitness.toy_lengths|]. split; [exact MlDsaWitness.toy_lengths|exact SlhWitness.toy_ok]. Qed.
Definition kem_seed : bytes := MlKemWitness.ex_d ++ MlKemWitness.ex_z.
Definition slh_seed : bytes := map Z.of_nat (seq 1 48).
Lemma ex_kem_key : exists k, seeded toyE (Kem K512) kem_seed k.
Proof.
  destruct MlKemWitness.ex_keygen as (ek & dk & G). eexists. split; [reflexivity|]. cbn [from_seed]. unfold kem_from_seed.
  change (length kem_seed =? 64)%nat with true. cbn [guard bind]. unfold kem_seed.
  rewrite firstn_exact, skipn_exact by reflexivity. cbn [toyE e_kem kem_params]. rewrite G. reflexivity.
Qed.
Lemma ex_dsa_key : exists k, seeded toyE (Dsa D44) MlDsaWitness.ex_xi k.
Proof.
  destruct MlDsaWitness.ex_signature as (pk & sk & sg & G & _). eexists. split; [reflexivity|]. cbn [from_seed]. unfold dsa_from_seed.
  cbn [toyE e_dsa dsa_params]. rewrite G. reflexivity.
Qed.
Lemma ex_slh_key : exists k, seeded toyE (Slh SlhModel.SHAKE S128f) slh_seed k.
Proof.
  destruct (slh_keygen toyE toyE_good SlhModel.SHAKE S128f slh_seed eq_refl) as (root & _ & G). eexists. split; [reflexivity|].
  cbn [from_seed]. unfold slh_from_seed. cbv zeta. change (length slh_seed =? 3 * slh_n SlhModel.SHAKE S128f)%nat with true. cbn [guard bind].
  rewrite G. reflexivity.
Qed.
(** A seed that begins like a DER OCTET STRING of one byte. *)
Definition der_seed : bytes := 4 :: 1 :: repeat 7 30.
Lemma ex_der_key : exists k, seeded toyE (Dsa D44) der_seed k.
Proof.
  assert (X : exists s12, MlDsaModel.expand_s MlDsaWitness.toy MlDsaModel.ml_dsa_44 (slice 32 96 (MlDsaSig.seeds MlDsaWitness.toy MlDsaModel.ml_dsa_44 der_seed)) = Ok s12).
  { assert (Y : is_ok (MlDsaModel.expand_s MlDsaWitness.toy MlDsaModel.ml_dsa_44 (slice 32 96 (MlDsaSig.seeds MlDsaWitness.toy MlDsaModel.ml_dsa_44 der_seed))) = true)
      by (vm_compute; reflexivity).
    destruct (MlDsaModel.expand_s _ _ _) as [x|]; [exists x; reflexivity|discriminate]. }
  destruct X as ([s1 s2] & X). assert (Hp : In MlDsaModel.ml_dsa_44 MlDsaModel.param_sets) by (left; reflexivity).
  destruct (MlDsaSig.keygen_eq MlDsaWitness.toy MlDsaModel.ml_dsa_44 (MlDsaEnc.param_sets_good _ Hp) MlDsaWitness.toy_lengths (MlDsaTop.param_sets_dims _ Hp)
    der_seed _ s1 s2 (MlDsaWitness.toy_expand _) X) as (pk & sk & G & _).
  eexists. split; [reflexivity|]. cbn [from_seed]. unfold dsa_from_seed. cbn [toyE e_dsa dsa_params]. rewrite G. reflexivity.
Qed.

(** ** C57: which byte strings are private keys *)
(** Exactly three lengths are accepted, those of the standards: seed, expanded key, seed followed by expanded key. *)
Theorem C57_lengths : forall E a d k, from_private_bytes E a d = Ok k ->
  length d = std_seed a \/ length d = std_priv a \/ length d = (std_seed a + std_priv a)%nat.
Proof.
  intros E a d k K. destruct (lengths a d) as [L|[L|[L|(L1 & L2 & L3)]]]; [auto|auto|auto|]. rewrite load_other in K by assumption. discriminate.
Qed.
Theorem C57_other_lengths : forall E a d,
  length d <> std_seed a -> length d <> std_priv a -> length d <> (std_seed a + std_priv a)%nat ->
  from_private_bytes E a d = Err EInvalidKeyData.
Proof. exact load_other. Qed.
(** What is loaded is a key of the algorithm asked for, with private and public keys of the standard sizes. *)
Theorem C57_loaded : forall E a d k, good_env E -> from_private_bytes E a d = Ok k ->
  k_alg k = a /\ length (k_priv k) = std_priv a /\ length (p_bytes (public_key k)) = std_pub a.
Proof. intros E a d k HE K. rewrite <- priv_std, <- pub_std. destruct (inv_load E HE a d k K) as (A & B & C & _). auto. Qed.
(** The three forms of a generated key give the same key; the seed is kept where it is present. *)
Theorem C57_forms_agree : forall E a s k, good_env E -> seeded E a s k ->
  from_private_bytes E a s = Ok k /\ k_seed k = Some s /\
  (exists k1, from_private_bytes E a (k_priv k) = Ok k1 /\ same_key k k1 /\ k_seed k1 = None) /\
  (exists k2, from_private_bytes E a (s ++ k_priv k) = Ok k2 /\ same_key k k2 /\ k_seed k2 = Some s).
Proof.
  intros E a s k HE [L K]. destruct (inv_seed E HE a s k K) as [I Sd]. split; [rewrite load_seed by exact L; exact K|]. split; [exact Sd|].
  split; [apply (reload_raw E a k I)|apply (reload_both E HE a s k L K)].
Qed.
Example C57_forms_agree_ex : good_env toyE /\ (exists k, seeded toyE (Kem K512) kem_seed k) /\
  (exists k, seeded toyE (Dsa D44) MlDsaWitness.ex_xi k) /\ (exists k, seeded toyE (Slh SlhModel.SHAKE S128f) slh_seed k).
Proof. split; [exact toyE_good|]. split; [exact ex_kem_key|]. split; [exact ex_dsa_key|exact ex_slh_key]. Qed.
Example C57_lengths_ex : exists k, from_private_bytes toyE (Slh SlhModel.SHAKE S128f) (repeat 1 64) = Ok k /\
  length (repeat 1 50) <> std_seed (Kem K512) /\ length (repeat 1 50) <> std_priv (Kem K512) /\
  length (repeat 1 50) <> (std_seed (Kem K512) + std_priv (Kem K512))%nat.
Proof. eexists. split; [reflexivity|]. repeat split; apply Nat.eqb_neq; reflexivity. Qed.
(** Public keys: exactly the byte strings of the standard size, kept as they are. *)
Theorem C57_public : forall a d k, from_public_bytes a d = Ok k <-> length d = std_pub a /\ k = {| p_alg := a; p_bytes := d |}.
Proof. exact public_bytes. Qed.
Example C57_public_ex : from_public_bytes (Kem K512) (repeat 1 800) = Ok {| p_alg := Kem K512; p_bytes := repeat 1 800 |} /\
  from_public_bytes (Kem K512) (repeat 1 801) = Err EInvalidKeyData.
Proof. split; reflexivity. Qed.
(** The key factory cuts its input to the length of the expanded key first: bytes after an expanded key are ignored, and
    a seed followed by the expanded key is read as an expanded key that begins with the seed. *)
Theorem C57_factory_trailing : forall E a r x, length r = std_priv a ->
  factory_from_private_bytes E a (r ++ x) = from_private_bytes E a r.
Proof. intros E a r x L. unfold factory_from_private_bytes. rewrite priv_std, firstn_exact by exact L. reflexivity. Qed.
Theorem C57_factory_seed_and_key_refuted : forall E a s r, length s = std_seed (Kem a) -> length r = std_priv (Kem a) ->
  exists k, factory_from_private_bytes E (Kem a) (s ++ r) = Ok k /\ k_seed k = None /\ firstn 64 (k_priv k) = s.
Proof.
  intros E a s r Ls Lr. assert (S64 : std_seed (Kem a) = 64%nat) by (destruct a; reflexivity).
  assert (P64 : (64 <= std_priv (Kem a))%nat) by apply (small (Kem a)).
  unfold factory_from_private_bytes. rewrite priv_std. rewrite load_raw by (rewrite firstn_length, app_length; lia).
  eexists. split; [reflexivity|]. split; [reflexivity|]. cbn [kem_new k_priv]. rewrite firstn_firstn.
  replace (Nat.min 64 (std_priv (Kem a))) with 64%nat by lia. apply firstn_exact. congruence.
Qed.
Example C57_factory_ex : exists s r : bytes, length s = std_seed (Kem K512) /\ length r = std_priv (Kem K512).
Proof. exists (repeat 5 (std_seed (Kem K512))), (repeat 6 (std_priv (Kem K512))). split; apply repeat_length. Qed.

(** ** C58: saved keys can be loaded again *)
(** Version 0 structures carry no public key (RFC 5958); every save type gives back the key, and the seed where the
    save type has it (SLH-DSA writes only the expanded key for SEED_AND_RAW). *)
Theorem C58_roundtrip : forall E a s k v t inc mv2, good_env E -> seeded E a s k -> v = 1 \/ v = 0 /\ inc = false ->
  exists o k', save_one_asym_key k v t inc = Ok o /\ combined_load E o mv2 = Ok k' /\ same_key k k' /\
    k_seed k' = match t with SEED => Some s | RAW => None | SEED_AND_RAW => if is_ml a then Some s else None end.
Proof.
  intros E a s k v t inc mv2 HE H Hv. destruct (roundtrip E HE a s k v t inc mv2 H Hv) as (o & k' & S & L & Hs & Hd). exists o, k'.
  split; [exact S|]. split; [exact L|]. split; [exact Hs|]. rewrite Hd. destruct t; reflexivity.
Qed.
Theorem C58_roundtrip_expanded : forall E a d k v inc mv2, good_env E -> from_private_bytes E a d = Ok k -> v = 1 \/ v = 0 /\ inc = false ->
  exists o k', save_one_asym_key k v RAW inc = Ok o /\ combined_load E o mv2 = Ok k' /\ same_key k k' /\ k_seed k' = None.
Proof. intros E a d k v inc mv2 HE. apply roundtrip_raw. exact HE. Qed.
Theorem C58_version_0_with_public_key_refuted : forall E k t mv2 o, save_one_asym_key k 0 t true = Ok o ->
  combined_load E o mv2 = Err EInvalidKeyData.
Proof. intros E k t mv2 o. apply version0_pub. Qed.
(** private_bytes in DER form writes the seed, or the expanded key, without the CHOICE around it.  This is loaded again
    unless an ML-KEM or ML-DSA key begins with one of the bytes 0x04, 0x30, 0x80 ... *)
Theorem C58_private_bytes : forall E a s k mv2, good_env E -> seeded E a s k ->
  (is_ml a = true -> exists x s', s = x :: s' /\ x <> 4 /\ x <> 48 /\ x <> 128) ->
  exists k', combined_load E (to_one_asym_key k) mv2 = Ok k' /\ same_key k k' /\ k_seed k' = Some s.
Proof.
  intros E a s k mv2 HE H Hd. apply (der_roundtrip E HE a s k mv2 H). intro M. destruct (Hd M) as (x & s' & -> & Hx). exact Hx.
Qed.
Theorem C58_private_bytes_expanded : forall E a d k mv2, good_env E -> length d = std_priv a -> from_private_bytes E a d = Ok k ->
  (is_ml a = true -> exists x d', d = x :: d' /\ x <> 4 /\ x <> 48 /\ x <> 128) ->
  exists k', combined_load E (to_one_asym_key k) mv2 = Ok k' /\ same_key k k' /\ k_seed k' = None.
Proof.
  intros E a d k mv2 HE L K Hd. apply (der_roundtrip_raw E HE a d k mv2 L K). intro M. destruct (Hd M) as (x & s' & -> & Hx). exact Hx.
Qed.
(** ... and it is refused whenever the seed begins with 0x04 and a length that the seed has room for. *)
Theorem C58_private_bytes_refuted : forall E a l d k mv2, good_env E -> is_ml a = true -> 0 <= l < 128 -> l <= Z.of_nat (length d) ->
  seeded E a (4 :: l :: d) k -> combined_load E (to_one_asym_key k) mv2 = Err EInvalidKeyData.
Proof. intros E a l d k mv2 HE. apply der_refused. exact HE. Qed.
Example C58_private_bytes_refuted_ex : exists k, seeded toyE (Dsa D44) (4 :: 1 :: repeat 7 30) k /\
  combined_load toyE (to_one_asym_key k) false = Err EInvalidKeyData.
Proof.
  destruct ex_der_key as (k & H). exists k. split; [exact H|].
  apply (C58_private_bytes_refuted toyE (Dsa D44) 1 (repeat 7 30) k false toyE_good eq_refl); [lia|cbn [length repeat]; lia|exact H].
Qed.
Example C58_private_bytes_ex : (exists s', kem_seed = 1 :: s') /\ exists k k', seeded toyE (Kem K512) kem_seed k /\
  combined_load toyE (to_one_asym_key k) false = Ok k' /\ same_key k k'.
Proof.
  split; [eexists; reflexivity|]. destruct ex_kem_key as (k & H). exists k.
  destruct (C58_private_bytes toyE (Kem K512) kem_seed k false toyE_good H) as (k' & L & S & _); [|exists k'; auto].
  intros _. eexists. eexists. split; [reflexivity|]. repeat split; discriminate.
Qed.
(** must_be_version_2 has no effect. *)
Theorem C58_must_be_version_2_refuted : forall E o, combined_load E o true = combined_load E o false.
Proof. reflexivity. Qed.
(** The check of exported keys accepts what was saved, except for SLH-DSA keys saved as SEED_AND_RAW and for keys
    without a seed. *)
Theorem C58_validated : forall E a s k t x, good_env E -> seeded E a s k -> save_private k t = Ok x ->
  is_ml a = true \/ t <> SEED_AND_RAW -> validate_export k x t = Ok tt.
Proof.
  intros E a s k t x HE H Sv Hc. destruct (is_ml a) eqn:M; [apply (validate_ml E HE a s k t x M H Sv)|].
  destruct Hc as [Hc|Hc]; [discriminate|]. destruct a as [a|a|f sl]; try discriminate M.
  rewrite (validate_slh E HE f sl s k t x H Sv). destruct t; try reflexivity. congruence.
Qed.
(** For a key with a seed the check passes exactly if the field says what the save type promises. *)
Theorem C58_validated_exact : forall k x t s, k_seed k = Some s -> (validate_export k x t = Ok tt <-> said (k_alg k) x t s (k_priv k)).
Proof. exact validate_sound. Qed.
Theorem C58_validated_seed_and_raw_refuted : forall E f sl s k x, good_env E -> seeded E (Slh f sl) s k -> save_private k SEED_AND_RAW = Ok x ->
  validate_export k x SEED_AND_RAW = Err EInvalidKeyData.
Proof. intros E f sl s k x HE H Sv. exact (validate_slh E HE f sl s k SEED_AND_RAW x H Sv). Qed.
Theorem C58_validated_no_seed_refuted : forall E a d k x, good_env E -> is_ml a = true -> length d = std_priv a ->
  from_private_bytes E a d = Ok k -> save_private k RAW = Ok x -> validate_export k x RAW = Err EValueError.
Proof. intros E a d k x HE. apply validate_no_seed. exact HE. Qed.
Example C58_roundtrip_ex : exists k o k', seeded toyE (Slh SlhModel.SHAKE S128f) slh_seed k /\
  save_one_asym_key k 1 SEED_AND_RAW false = Ok o /\ combined_load toyE o false = Ok k' /\ k_seed k' = None /\
  validate_export k (o_priv o) SEED_AND_RAW = Err EInvalidKeyData.
Proof.
  destruct ex_slh_key as (k & H). destruct (C58_roundtrip toyE _ _ k 1 SEED_AND_RAW false false toyE_good H (or_introl eq_refl)) as (o & k' & S & L & _ & D).
  exists k, o, k'. split; [exact H|]. split; [exact S|]. split; [exact L|]. split; [exact D|].
  apply (C58_validated_seed_and_raw_refuted toyE _ _ slh_seed k _ toyE_good H).
  revert S. clear. unfold save_one_asym_key. destruct (save_private k SEED_AND_RAW); cbn [bind]; intro S; [|discriminate S]. injection S as <-. reflexivity.
Qed.

(** ** C59: a seed and an expanded key that do not belong together are refused *)
Theorem C59_dsa_slh : forall E a s r k, (forall n, a <> Kem n) -> length s = std_seed a -> length r = std_priv a ->
  from_private_bytes E a (s ++ r) = Ok k -> seeded E a s k /\ k_priv k = r.
Proof.
  intros E a s r k Hk Ls Lr K. destruct (both_checked E a s r k Hk Ls Lr K) as [A B]. split; [split; assumption|exact B].
Qed.
(** ML-KEM accepts every pair, and keeps both. *)
Theorem C59_kem_refuted : forall E a s r, length s = std_seed (Kem a) -> length r = std_priv (Kem a) ->
  exists k, from_private_bytes E (Kem a) (s ++ r) = Ok k /\ k_priv k = r /\ k_seed k = Some s.
Proof. intros E a s r Ls Lr. rewrite load_both by assumption. eexists. split; [reflexivity|]. split; reflexivity. Qed.
(** In the "both" form of OneAsymmetricKey every expanded key that can be loaded is accepted for ML-KEM and ML-DSA, and
    ignored. *)
Theorem C59_one_asym_key_refuted : forall E a s r k k2 pub, good_env E -> is_ml a = true -> seeded E a s k -> length r = std_priv a ->
  from_private_bytes E a r = Ok k2 -> pub = None \/ pub = Some (p_bytes (public_key k)) ->
  exists x, enc_choice a (CBoth s r) = Ok x /\
    from_one_asym_key E {| o_version := 1; o_oid := Plain a; o_priv := x; o_pub := pub |} = Ok k.
Proof. intros E a s r k k2 pub HE. apply choice_both_unchecked. exact HE. Qed.
(** Two different ML-DSA keys combined: the seed of one, the expanded key of the other. *)
Example C59_one_asym_key_refuted_ex : exists s s' k k' x, seeded toyE (Dsa D44) s k /\ seeded toyE (Dsa D44) s' k' /\ s <> s' /\
  enc_choice (Dsa D44) (CBoth s (k_priv k')) = Ok x /\
  from_one_asym_key toyE {| o_version := 1; o_oid := Plain (Dsa D44); o_priv := x; o_pub := None |} = Ok k.
Proof.
  destruct ex_dsa_key as (k & H). destruct ex_der_key as (k' & H'). exists MlDsaWitness.ex_xi, der_seed, k, k'.
  destruct (C57_forms_agree toyE (Dsa D44) der_seed k' toyE_good H') as (L0 & _ & (k1 & K1 & _) & _).
  destruct (C57_loaded toyE _ _ _ toyE_good L0) as (_ & Lp & _).
  destruct (C59_one_asym_key_refuted toyE (Dsa D44) _ (k_priv k') k k1 None toyE_good eq_refl H Lp K1 (or_introl eq_refl)) as (x & Ex & Lx).
  exists x. split; [exact H|]. split; [exact H'|]. split; [discriminate|]. split; assumption.
Qed.
Lemma slh_priv_prefix E f sl s k : good_env E -> seeded E (Slh f sl) s k -> exists r, k_priv k = s ++ r.
Proof.
  intros HE [L H]. rewrite <- seed_std in L. cbn [seed_size] in L. destruct (slh_keygen E HE f sl s L) as (root & _ & G). exists root.
  cbn [from_seed] in H. unfold slh_from_seed in H. cbv zeta in H. rewrite G in H.
  destruct (guard _ _); [|discriminate]. cbn [bind] in H. injection H as <-. reflexivity.
Qed.
Example C59_dsa_slh_ex : exists s k, seeded toyE (Slh SlhModel.SHAKE S128f) s k /\ length (k_priv k) = std_priv (Slh SlhModel.SHAKE S128f) /\
  from_private_bytes toyE (Slh SlhModel.SHAKE S128f) (s ++ repeat 0 64) <> Ok k.
Proof.
  destruct ex_slh_key as (k & H). exists slh_seed, k. split; [exact H|].
  destruct (C57_forms_agree toyE _ _ k toyE_good H) as (L0 & _). destruct (C57_loaded toyE _ _ _ toyE_good L0) as (_ & Lp & _). split; [exact Lp|].
  intro K. assert (P : k_priv k = repeat 0 64).
  { apply (C59_dsa_slh toyE (Slh SlhModel.SHAKE S128f) slh_seed (repeat 0 64) k); [discriminate|reflexivity|reflexivity|exact K]. }
  destruct (slh_priv_prefix toyE _ _ _ k toyE_good H) as (r & R). rewrite R in P. discriminate P.
Qed.

(** ** C60: an attached public key is the key's own *)
Theorem C60_attached : forall E a o b k mv2, good_env E -> o_oid o = Plain a \/ o_oid o = PreHash a -> o_pub o = Some b -> b <> [] ->
  combined_load E o mv2 = Ok k ->
  exists k0, combined_load E {| o_version := o_version o; o_oid := o_oid o; o_priv := o_priv o; o_pub := None |} mv2 = Ok k0 /\
    same_key k0 k /\ p_bytes (public_key k0) = b.
Proof. intros E a o b k mv2 HE. apply attached. exact HE. Qed.
Theorem C60_mismatch : forall E a x b k0 mv2, good_env E ->
  combined_load E {| o_version := 1; o_oid := Plain a; o_priv := x; o_pub := None |} mv2 = Ok k0 ->
  length b = std_pub a -> b <> p_bytes (public_key k0) ->
  combined_load E {| o_version := 1; o_oid := Plain a; o_priv := x; o_pub := Some b |} mv2 = Err EMismatchingKey.
Proof. intros E a x b k0 mv2 HE. apply mismatch. exact HE. Qed.
Theorem C60_empty_refuted : forall E a s k mv2, seeded E a s k ->
  (is_ml a = true -> exists x s', s = x :: s' /\ x <> 4 /\ x <> 48 /\ x <> 128) ->
  exists k', combined_load E {| o_version := 1; o_oid := Plain a; o_priv := s; o_pub := Some [] |} mv2 = Ok k' /\
    k_priv k' = k_priv k /\ p_bytes (public_key k') = [].
Proof.
  intros E a s k mv2 H Hd. apply (empty_pub E a s k mv2 H). intro M. destruct (Hd M) as (x & s' & -> & Hx). exact Hx.
Qed.
Lemma saved_fields k t o : save_one_asym_key k 1 t false = Ok o ->
  o_version o = 1 /\ o_pub o = Some (p_bytes (public_key k)) /\ o_oid o = Plain (k_alg k).
Proof.
  unfold save_one_asym_key. destruct (save_private k t) as [x|]; cbn [bind]; intro S; [|discriminate S].
  injection S as <-. split; [reflexivity|]. split; reflexivity.
Qed.
(** A key saved with its public key is loaded; with one byte of the public key changed it is refused. *)
Definition tamper (b : bytes) : bytes := match b with [] => [] | x :: l => x + 1 :: l end.
Example C60_ex : exists k o k', seeded toyE (Dsa D44) MlDsaWitness.ex_xi k /\ save_one_asym_key k 1 SEED false = Ok o /\
  o_pub o = Some (p_bytes (public_key k)) /\ p_bytes (public_key k) <> [] /\ combined_load toyE o false = Ok k' /\
  combined_load toyE {| o_version := 1; o_oid := Plain (Dsa D44); o_priv := o_priv o; o_pub := Some (tamper (p_bytes (public_key k))) |} false =
  Err EMismatchingKey.
Proof.
  destruct ex_dsa_key as (k & H). destruct (C58_roundtrip toyE _ _ k 1 SEED false false toyE_good H (or_introl eq_refl)) as (o & k' & S & L & Hs & _).
  destruct (C57_forms_agree toyE _ _ k toyE_good H) as (L0 & _). destruct (C57_loaded toyE _ _ _ toyE_good L0) as (Ak & _ & Lp).
  assert (Np : p_bytes (public_key k) <> []) by (intro X; rewrite X in Lp; discriminate Lp).
  pose proof (saved_fields k SEED o S) as Fo. rewrite Ak in Fo.
  destruct Fo as (Fv & Fp & Fo). exists k, o, k'. split; [exact H|]. split; [exact S|]. split; [exact Fp|]. split; [exact Np|]. split; [exact L|].
  destruct (C60_attached toyE (Dsa D44) o _ k' false toyE_good (or_introl Fo) Fp Np L) as (k0 & L1 & S1 & P1). rewrite Fv, Fo in L1.
  revert Lp Np P1. generalize (p_bytes (public_key k)). intros b Lb Nb Pb.
  apply (C60_mismatch toyE (Dsa D44) (o_priv o) (tamper b) k0 false toyE_good L1).
  - destruct b; [congruence|]. exact Lb.
  - rewrite Pb. destruct b as [|x b]; [congruence|]. cbn [tamper]. intro X. injection X as X. lia.
Qed.

(** ** C61: the public key computed from an ML-DSA private key *)
Theorem C61_derived : forall E a s pk sk, good_env E -> MlDsaModel.keygen_internal (e_dsa E) (dsa_params a) s = Ok (pk, sk) ->
  dsa_derive_public_key E a sk = Ok pk.
Proof. intros E a s pk sk HE. apply (derive_generated E HE a s). Qed.
(** For every other private key of the right size, what is computed has the size of a public key. *)
Theorem C61_size : forall E a sk pk, length sk = std_priv (Dsa a) -> dsa_derive_public_key E a sk = Ok pk -> length pk = std_pub (Dsa a).
Proof.
  intros E a sk pk L D. rewrite <- priv_std in L. rewrite <- pub_std. exact (derive_length E a sk pk L D).
Qed.
Example C61_ex : exists pk sk, MlDsaModel.keygen_internal (e_dsa toyE) (dsa_params D44) MlDsaWitness.ex_xi = Ok (pk, sk) /\
  dsa_derive_public_key toyE D44 sk = Ok pk.
Proof.
  destruct MlDsaWitness.ex_signature as (pk & sk & sg & G & _). exists pk, sk. split; [exact G|]. exact (C61_derived toyE D44 _ pk sk toyE_good G).
Qed.

(** ** C62: loaded keys work *)
(** [k'] may be the generated key [k], or the same key loaded from any form. *)
Theorem C62_kem : forall E a s k k' m, good_env E -> seeded E (Kem a) s k -> same_key k k' -> length m = 32%nat -> is_bytes m = true ->
  exists K r c,
    MlKemModel.hash_g (e_kem E) (m ++ MlKemModel.sha3_256 (e_kem E) (p_bytes (public_key k'))) = (K, r) /\
    kem_encaps E a (p_bytes (public_key k')) m = Ok (K, c) /\
    (let seeds := MlKemModel.hash_g (e_kem E) (firstn 32 s ++ [Z.of_nat (MlKemModel.k (kem_params a))]) in
     MlKemSpec.no_failure (e_kem E) (kem_params a) (fst seeds) (snd seeds) r m -> kem_decaps E a (k_priv k') c = Ok K).
Proof. intros E a s k k' m HE. apply kem_use. exact HE. Qed.
Theorem C62_dsa : forall E a s k k' fuel data h ctx pre rnd sg, good_env E -> seeded E (Dsa a) s k -> same_key k k' ->
  h = None \/ h = Some HSha512 -> dsa_sign E a fuel (k_priv k') data h ctx pre rnd = Some (Ok sg) ->
  dsa_verify E a (p_bytes (public_key k')) sg data h pre ctx = Ok tt /\
  length sg = match a with D44 => 2420%nat | D65 => 3309%nat | D87 => 4627%nat end.
Proof.
  intros E a s k k' fuel data h ctx pre rnd sg HE H1 H2 H3 H4. destruct (dsa_use E HE a s k k' fuel data h ctx pre rnd sg H1 H2 H3 H4) as [V L].
  split; [exact V|]. rewrite L. destruct a; reflexivity.
Qed.
(** Signing with an unsupported hash algorithm silently makes a pure signature; verifying with it fails. *)
Theorem C62_dsa_other_hash_refuted : forall E a fuel priv pub data h ctx pre rnd sg, h <> HSha512 ->
  dsa_sign E a fuel priv data (Some h) ctx pre rnd = dsa_sign E a fuel priv data None ctx pre rnd /\
  dsa_verify E a pub sg data (Some h) pre ctx = Err EValueError.
Proof. exact dsa_unsupported. Qed.
Theorem C62_slh : forall E f sl s k k' data h ctx pre, good_env E -> seeded E (Slh f sl) s k -> same_key k k' -> (length ctx <= 255)%nat ->
  exists sg, slh_sign E f sl (k_priv k') data h ctx pre = Ok sg /\ length sg = SlhModel.sig_sz (slh_params f sl) /\
    slh_verify E f sl (p_bytes (public_key k')) sg data h pre ctx = Ok tt.
Proof. intros E f sl s k k' data h ctx pre HE. apply slh_use. exact HE. Qed.
(** With any hash algorithm but the one of the parameter set, pure signatures are made and accepted. *)
Theorem C62_slh_other_hash : forall E f sl priv pub data h ctx pre sg, h <> slh_hash_of f sl ->
  slh_sign E f sl priv data (Some h) ctx pre = slh_sign E f sl priv data None ctx pre /\
  slh_verify E f sl pub sg data (Some h) pre ctx = slh_verify E f sl pub sg data None pre ctx.
Proof. exact slh_unsupported. Qed.
(** Hashing by the caller and by the library give the same signatures and the same verdicts. *)
Theorem C62_prehashed : forall E a f sl fuel priv pub data ctx rnd sg,
  dsa_sign E a fuel priv data (Some HSha512) ctx false rnd = dsa_sign E a fuel priv (e_hash E HSha512 data) (Some HSha512) ctx true rnd /\
  dsa_verify E a pub sg data (Some HSha512) false ctx = dsa_verify E a pub sg (e_hash E HSha512 data) (Some HSha512) true ctx /\
  (let h := slh_hash_of f sl in
   slh_sign E f sl priv data (Some h) ctx false = slh_sign E f sl priv (e_hash E h data) (Some h) ctx true /\
   slh_verify E f sl pub sg data (Some h) false ctx = slh_verify E f sl pub sg (e_hash E h data) (Some h) true ctx).
Proof.
  intros E a f sl fuel priv pub data ctx rnd sg. destruct (dsa_prehashed E a fuel priv pub data ctx rnd sg) as [A B].
  split; [exact A|]. split; [exact B|]. exact (slh_prehashed E f sl priv pub data ctx sg).
Qed.
(** What is signed and what is verified: the messages of the standards, nothing else. *)
Theorem C62_dsa_signed : forall E a fuel priv data h ctx pre rnd sg, dsa_sign E a fuel priv data h ctx pre rnd = Some (Ok sg) ->
  (length ctx <= 255)%nat /\ exists m r, signed_message E (dsa_effective h) pre ctx data = Some m /\
  MlDsaModel.sign_internal (e_dsa E) (dsa_params a) fuel priv m r = Some (Ok sg).
Proof. exact dsa_signed. Qed.
Theorem C62_dsa_verified : forall E a pub sg data h pre ctx, dsa_verify E a pub sg data h pre ctx = Ok tt <->
  (length ctx <= 255)%nat /\ (h = None \/ h = Some HSha512) /\
  exists m, signed_message E h pre ctx data = Some m /\ MlDsaModel.verify_internal (e_dsa E) (dsa_params a) pub m sg = Ok true.
Proof. exact dsa_verified. Qed.
Theorem C62_slh_signed : forall E f s priv data h ctx pre sg, slh_sign E f s priv data h ctx pre = Ok sg ->
  (length ctx <= 255)%nat /\ exists m, signed_message E (slh_effective f s h) pre ctx data = Some m /\
  SlhModel.slh_sign_internal (e_slh E) (slh_params f s) m priv None = Ok sg.
Proof. exact slh_signed. Qed.
Theorem C62_slh_verified : forall E f s pub sg data h pre ctx, slh_verify E f s pub sg data h pre ctx = Ok tt <->
  (length ctx <= 255)%nat /\ exists m, signed_message E (slh_effective f s h) pre ctx data = Some m /\
  SlhModel.slh_verify_internal (e_slh E) (slh_params f s) m sg pub = Ok true.
Proof. exact slh_verified. Qed.
(** The signed message determines the mode, the context, the hash algorithm and the data. *)
Theorem C62_separated : forall E ctx ctx' h h' d d' m m',
  signed_message E h true ctx d = Some m -> signed_message E h' true ctx' d' = Some m' -> m = m' -> h = h' /\ ctx = ctx' /\ d = d'.
Proof.
  intros E ctx ctx' h h' d d' m m' M M' ->.
  assert (O : forall x o, std_oid x = Some o -> hash_oid x = Ok o) by (intros x o; destruct x; intro H; try discriminate H; injection H as <-; reflexivity).
  destruct (messages_separate ctx ctx' HSha256 HSha256 _ _ d d' eq_refl eq_refl) as (_ & _ & Pu).
  destruct h as [h|], h' as [h'|]; cbn [signed_message] in M, M'; try (destruct (std_oid h) as [o|] eqn:Eo; [|discriminate]; apply O in Eo);
    try (destruct (std_oid h') as [o'|] eqn:Eo'; [|discriminate]; apply O in Eo'); cbn [option_map] in M, M'.
  - destruct (messages_separate ctx ctx' h h' o o' d d' Eo Eo') as (Q & _). destruct Q as (-> & -> & ->); [|auto].
    change (pre_mp ctx) with (prehash_message ctx). change (pre_mp ctx') with (prehash_message ctx'). congruence.
  - destruct (messages_separate ctx' ctx h h o o d' d Eo Eo) as (_ & Q & _). destruct Q. change (pre_mp ctx) with (prehash_message ctx). congruence.
  - destruct (messages_separate ctx ctx' h' h' o' o' d d' Eo' Eo') as (_ & Q & _). destruct Q. change (pre_mp ctx') with (prehash_message ctx'). congruence.
  - destruct Pu as (-> & ->); [congruence|auto].
Qed.
Example C62_ex : exists k sg, seeded toyE (Dsa D44) MlDsaWitness.ex_xi k /\
  dsa_sign toyE D44 1 (k_priv k) [2] None [5; 6] false [] = Some (Ok sg) /\
  dsa_verify toyE D44 (p_bytes (public_key k)) sg [2] None false [5; 6] = Ok tt.
Proof.
  destruct ex_dsa_key as (k & H). destruct MlDsaProperties.C33_verify_ex as (_ & pk & sk & sg & _ & _ & _ & G & Sg & _).
  pose proof H as [_ K]. apply dsa_seeded in K. cbn [toyE e_dsa dsa_params] in K. assert (Ek : k_priv k = sk) by congruence. subst sk.
  assert (Sk : same_key k k) by (split; [|split]; reflexivity).
  assert (Hs : dsa_sign toyE D44 1 (k_priv k) [2] None [5; 6] false [] = Some (Ok sg)).
  { unfold dsa_sign. change (255 <? length [5; 6])%nat with false. cbv iota. cbn [dsa_check_hash toyE e_dsa dsa_params]. rewrite Sg.
    destruct sg as [|x sg]; [|reflexivity]. exfalso.
    destruct (MlDsaProperties.C33_verify _ _ _ _ _ _ _ _ _ _ (or_introl eq_refl) MlDsaWitness.toy_lengths G Sg) as (L & _). discriminate L. }
  exists k, sg. split; [exact H|]. split; [exact Hs|].
  exact (proj1 (C62_dsa toyE D44 _ k k 1 [2] None [5; 6] false [] sg toyE_good H Sk (or_introl eq_refl) Hs)).
Qed.
Example C62_hash_ex : HSha256 <> HSha512 /\ HSha512 <> slh_hash_of SlhModel.SHA2 S128s /\ slh_hash_of SlhModel.SHAKE S256f = HShake256 /\
  hash_oid HSha512 = Ok [6; 9; 96; 134; 72; 1; 101; 3; 4; 2; 3].
Proof. repeat split; discriminate. Qed.

Print Assumptions C57_lengths.
Print Assumptions C57_other_lengths.
Print Assumptions C57_loaded.
Print Assumptions C57_forms_agree.
Print Assumptions C57_public.
Print Assumptions C57_factory_trailing.
Print Assumptions C57_factory_seed_and_key_refuted.
Print Assumptions C58_roundtrip.
Print Assumptions C58_roundtrip_expanded.
Print Assumptions C58_version_0_with_public_key_refuted.
Print Assumptions C58_private_bytes.
Print Assumptions C58_private_bytes_expanded.
Print Assumptions C58_private_bytes_refuted.
Print Assumptions C58_must_be_version_2_refuted.
Print Assumptions C58_validated.
Print Assumptions C58_validated_exact.
Print Assumptions C58_validated_seed_and_raw_refuted.
Print Assumptions C58_validated_no_seed_refuted.
Print Assumptions C59_dsa_slh.
Print Assumptions C59_kem_refuted.
Print Assumptions C59_one_asym_key_refuted.
Print Assumptions C60_attached.
Print Assumptions C60_mismatch.
Print Assumptions C60_empty_refuted.
Print Assumptions C61_derived.
Print Assumptions C61_size.
Print Assumptions C62_kem.
Print Assumptions C62_dsa.
Print Assumptions C62_dsa_other_hash_refuted.
Print Assumptions C62_slh.
Print Assumptions C62_slh_other_hash.
Print Assumptions C62_prehashed.
Print Assumptions C62_dsa_signed.
Print Assumptions C62_dsa_verified.
Print Assumptions C62_slh_signed.
Print Assumptions C62_slh_verified.
Print Assumptions C62_separated.
