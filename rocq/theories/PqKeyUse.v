(** Signing, verifying, encapsulating and decapsulating through key objects; checks of exported keys. *)
From Verif Require Import PqKeyModel PqKeySpec PqKeyProofs PqKeyMore PreludeFacts LatFacts.
From Verif Require MlKemSpec MlDsaSpec SlhSpec MlKemMore MlDsaEnc MlDsaSig MlDsaTop SlhHt SlhTop SlhTree.
Local Open Scope Z_scope.

Section Use.
Variable E : env.
Hypothesis HE : good_env E.

Lemma dsa_seeded a s k : from_seed E (Dsa a) s = Ok k ->
  MlDsaModel.keygen_internal (e_dsa E) (dsa_params a) s = Ok (p_bytes (public_key k), k_priv k).
Proof.
  cbn [from_seed]. unfold dsa_from_seed. destruct (MlDsaModel.keygen_internal _ _ _) as [[pk sk]|]; [|discriminate]. cbn [bind].
  intros [= <-]. reflexivity.
Qed.
Lemma dsa_hash_cases h : h = None \/ h = Some HSha512 -> dsa_check_hash h true = Ok h /\ dsa_check_hash h false = Ok h.
Proof. intros [->| ->]; split; reflexivity. Qed.

Theorem dsa_use a s k k' fuel data h ctx pre rnd sg : seeded E (Dsa a) s k -> same_key k k' -> h = None \/ h = Some HSha512 ->
  dsa_sign E a fuel (k_priv k') data h ctx pre rnd = Some (Ok sg) ->
  dsa_verify E a (p_bytes (public_key k')) sg data h pre ctx = Ok tt /\ length sg = MlDsaEnc.sig_len (dsa_params a).
Proof using HE.
  intros [_ K] (_ & S2 & S3) Hh S. rewrite <- S2 in S. rewrite <- S3. clear S2 S3. apply dsa_seeded in K.
  pose proof HE as (_ & He & _). pose proof (dsa_in a) as Hp. set (p := dsa_params a) in *.
  destruct (dsa_hash_cases h Hh) as [C1 C2]. unfold dsa_sign in S. rewrite C1 in S. unfold dsa_verify. rewrite C2.
  destruct (Nat.ltb_spec 255 (length ctx)) as [L|L]; [discriminate|]. cbn [negb guard bind].
  assert (V : forall rnd mp, MlDsaModel.sign_internal (e_dsa E) p fuel (k_priv k) mp rnd = Some (Ok sg) ->
    length sg = MlDsaEnc.sig_len p /\ MlDsaModel.verify_internal (e_dsa E) p (p_bytes (public_key k)) mp sg = Ok true).
  { intros rnd' mp Si. destruct (MlDsaSig.signature_verifies (e_dsa E) p (MlDsaEnc.param_sets_good p Hp) He (MlDsaTop.param_sets_dims p Hp)
      s _ _ fuel mp rnd' sg K Si) as (V1 & _ & V2). auto. }
  fold p in S. destruct Hh as [->| ->].
  - fold p. destruct (MlDsaModel.sign _ _ _ _ _ _ _) as [[[s0|]|]|] eqn:Si; try discriminate. destruct s0 as [|x s0]; [discriminate|].
    assert (sg = x :: s0) by congruence. subst sg. destruct (MlDsaTop.sign_ok _ _ _ _ _ _ _ _ Si) as [_ Si']. destruct (V _ _ Si') as [V1 V2].
    rewrite MlDsaTop.verify_eq by exact L. rewrite V2. split; [reflexivity|exact V1].
  - cbn [hash_oid bind] in *. fold p. set (mp := pre_mp ctx _ _) in *. destruct (MlDsaModel.sign_internal _ _ _ _ _ _) as [[s0|]|] eqn:Si; try discriminate.
    assert (sg = s0) by (destruct s0; [discriminate|congruence]). subst s0. destruct (V _ _ Si) as [V1 V2]. rewrite V2. split; [reflexivity|exact V1].
Qed.
Theorem dsa_unsupported a fuel priv pub data h ctx pre rnd sg : h <> HSha512 ->
  dsa_sign E a fuel priv data (Some h) ctx pre rnd = dsa_sign E a fuel priv data None ctx pre rnd /\
  dsa_verify E a pub sg data (Some h) pre ctx = Err EValueError.
Proof.
  intro Hh. split.
  - unfold dsa_sign. destruct (_ <? _)%nat; [reflexivity|]. destruct h; try reflexivity. congruence.
  - unfold dsa_verify. destruct (negb _); [|reflexivity]. cbn [guard bind]. destruct h; try reflexivity. congruence.
Qed.
(** Pre-hashing by the caller. *)
Theorem dsa_prehashed a fuel priv pub data ctx rnd sg :
  dsa_sign E a fuel priv data (Some HSha512) ctx false rnd = dsa_sign E a fuel priv (e_hash E HSha512 data) (Some HSha512) ctx true rnd /\
  dsa_verify E a pub sg data (Some HSha512) false ctx = dsa_verify E a pub sg (e_hash E HSha512 data) (Some HSha512) true ctx.
Proof. split; reflexivity. Qed.

(** * SLH-DSA *)
Lemma slh_seeded f sl s k : length s = std_seed (Slh f sl) -> from_seed E (Slh f sl) s = Ok k ->
  exists x y z, s = x ++ y ++ z /\ length x = slh_n f sl /\ length y = slh_n f sl /\ length z = slh_n f sl /\
  SlhModel.slh_keygen_internal (e_slh E) (slh_params f sl) x y z = Ok (p_bytes (public_key k), k_priv k).
Proof.
  rewrite <- seed_std. cbn [from_seed seed_size]. intro L. unfold slh_from_seed. cbv zeta. set (n := slh_n f sl) in *. rewrite L, Nat.eqb_refl. cbn [guard bind].
  destruct (SlhModel.slh_keygen_internal _ _ _ _ _) as [[pk sk]|] eqn:K; [|discriminate]. cbn [bind]. intros [= <-].
  exists (firstn n s), (slice n (2 * n) s), (skipn (2 * n) s). split.
  { unfold slice. replace (2 * n - n)%nat with n by lia. rewrite <- (firstn_skipn n s) at 1. f_equal.
    rewrite <- (firstn_skipn n (skipn n s)) at 1. f_equal. rewrite SlhTree.skipn_plus. f_equal. lia. }
  split; [rewrite firstn_length; lia|]. split; [apply (eq_trans (slice_length s n (2 * n) ltac:(lia) ltac:(lia))); lia|].
  split; [rewrite skipn_length; lia|exact K].
Qed.
Lemma slh_check_oid f sl h : slh_check_hash f sl h = None \/
  exists o, slh_check_hash f sl h = Some (slh_hash_of f sl) /\ hash_oid (slh_hash_of f sl) = Ok o.
Proof.
  unfold slh_check_hash. destruct h as [h|]; [|left; reflexivity]. destruct (hname_eqb h (slh_hash_of f sl)) eqn:Q; [right|left; reflexivity].
  assert (h = slh_hash_of f sl) by (destruct h, (slh_hash_of f sl); (reflexivity || discriminate Q)). subst h.
  destruct f, sl; eexists; (split; [reflexivity|reflexivity]).
Qed.
Theorem slh_use f sl s k k' data h ctx pre : seeded E (Slh f sl) s k -> same_key k k' -> (length ctx <= 255)%nat ->
  exists sg, slh_sign E f sl (k_priv k') data h ctx pre = Ok sg /\ length sg = SlhModel.sig_sz (slh_params f sl) /\
    slh_verify E f sl (p_bytes (public_key k')) sg data h pre ctx = Ok tt.
Proof using HE.
  intros [L K] (_ & S2 & S3) Lc. rewrite <- S2, <- S3. clear S2 S3. destruct (slh_seeded f sl s k L K) as (x & y & z & _ & L1 & L2 & L3 & G).
  pose proof HE as (_ & _ & He). pose proof (SlhTop.wf_of _ (slh_in f sl)) as W. set (p := slh_params f sl) in *.
  assert (V : forall mp, exists sg, SlhModel.slh_sign_internal (e_slh E) p mp (k_priv k) None = Ok sg /\ length sg = SlhModel.sig_sz p /\
    SlhModel.slh_verify_internal (e_slh E) p mp sg (p_bytes (public_key k)) = Ok true).
  { intro mp. destruct (SlhHt.sign_total (e_slh E) p He W mp (k_priv k) None) as (sg & Sg & Lg). exists sg. split; [exact Sg|]. split; [exact Lg|].
    apply (SlhHt.sign_verify (e_slh E) p He W x y z _ _ mp None sg L1 L2 L3 G Sg). }
  assert (Z0 : (0 < SlhModel.sig_sz p)%nat) by (unfold p; destruct f, sl; apply Nat.ltb_lt; reflexivity).
  assert (Ne : forall sg : bytes, length sg = SlhModel.sig_sz p -> guard (match sg with [] => false | _ => true end) EValueError = Ok tt).
  { intros [|u sg] H; [cbn [length] in H; lia|reflexivity]. }
  unfold slh_sign, slh_verify. cbv zeta. rewrite (proj2 (Nat.ltb_ge _ _) Lc). cbn [negb guard bind]. fold p.
  destruct (slh_check_oid f sl h) as [->|(o & -> & ->)].
  - destruct (V (SlhModel.pure_msg ctx data)) as (sg & Sg & Lg & Vg). exists sg.
    unfold SlhModel.slh_sign, SlhModel.slh_verify. rewrite (proj2 (Nat.ltb_ge _ _) Lc).
    rewrite Sg. cbn [bind]. rewrite Ne by exact Lg. rewrite Vg. cbn [bind]. auto.
  - cbn [bind]. destruct (V (pre_mp ctx o (if pre then data else e_hash E (slh_hash_of f sl) data))) as (sg & Sg & Lg & Vg). exists sg.
    rewrite Sg. cbn [bind]. rewrite Ne by exact Lg. rewrite Vg. cbn [bind]. auto.
Qed.
Theorem slh_unsupported f sl priv pub data h ctx pre sg : h <> slh_hash_of f sl ->
  slh_sign E f sl priv data (Some h) ctx pre = slh_sign E f sl priv data None ctx pre /\
  slh_verify E f sl pub sg data (Some h) pre ctx = slh_verify E f sl pub sg data None pre ctx.
Proof.
  intro H. unfold slh_sign, slh_verify, slh_check_hash. replace (hname_eqb h (slh_hash_of f sl)) with false; [split; reflexivity|].
  symmetry. destruct h, (slh_hash_of f sl); try reflexivity; congruence.
Qed.
Theorem slh_prehashed f sl priv pub data ctx sg : let h := slh_hash_of f sl in
  slh_sign E f sl priv data (Some h) ctx false = slh_sign E f sl priv (e_hash E h data) (Some h) ctx true /\
  slh_verify E f sl pub sg data (Some h) false ctx = slh_verify E f sl pub sg (e_hash E h data) (Some h) true ctx.
Proof. destruct f, sl; split; reflexivity. Qed.

(** * The signed messages *)
Lemma app_inv_len {A} (a b c d : list A) : length a = length b -> a ++ c = b ++ d -> a = b /\ c = d.
Proof.
  revert b. induction a as [|x a IH]; intros [|y b] L H; try discriminate L; [auto|]. cbn [app] in H. injection H as -> H.
  destruct (IH b) as [-> ->]; [injection L; auto|exact H|]. auto.
Qed.
Lemma oid_length h o : hash_oid h = Ok o -> length o = 11%nat.
Proof. destruct h; cbn [hash_oid]; intro H; try discriminate; injection H as <-; reflexivity. Qed.
Theorem messages_separate ctx ctx' h h' o o' d d' : hash_oid h = Ok o -> hash_oid h' = Ok o' ->
  (pre_mp ctx o d = pre_mp ctx' o' d' -> ctx = ctx' /\ h = h' /\ d = d') /\ pure_message ctx d <> pre_mp ctx' o' d' /\
  (pure_message ctx d = pure_message ctx' d' -> ctx = ctx' /\ d = d').
Proof.
  intros O O'. assert (L : length o = 11%nat /\ length o' = 11%nat) by (split; [apply (oid_length h)|apply (oid_length h')]; assumption).
  split; [|split].
  - unfold pre_mp. intro H. cbn [app] in H. assert (Lc : length ctx = length ctx') by (apply Nat2Z.inj; congruence).
    assert (H' : ctx ++ o ++ d = ctx' ++ o' ++ d') by congruence. apply app_inv_len in H' as [-> H']; [|exact Lc].
    apply app_inv_len in H' as [-> ->]; [|destruct L; congruence]. split; [reflexivity|]. split; [|reflexivity].
    destruct h, h'; cbn in O, O'; congruence.
  - unfold pure_message, pre_mp. cbn [app]. discriminate.
  - unfold pure_message. intro H. cbn [app] in H. assert (Lc : length ctx = length ctx') by (apply Nat2Z.inj; congruence).
    assert (H' : ctx ++ d = ctx' ++ d') by congruence. apply app_inv_len in H' as [-> ->]; [|exact Lc]. auto.
Qed.

(** * ML-KEM *)
Lemma kem_seeded a s k : length s = 64%nat -> from_seed E (Kem a) s = Ok k ->
  MlKemModel.keygen_internal (e_kem E) (kem_params a) (firstn 32 s) (skipn 32 s) = Ok (p_bytes (public_key k), k_priv k).
Proof.
  intro L. cbn [from_seed]. unfold kem_from_seed. rewrite L. cbn [Nat.eqb guard bind]. destruct (MlKemModel.keygen_internal _ _ _ _) as [[pk sk]|]; [|discriminate]. cbn [bind].
  intros [= <-]. reflexivity.
Qed.
Theorem kem_use a s k k' m : seeded E (Kem a) s k -> same_key k k' -> length m = 32%nat -> is_bytes m = true ->
  exists K r c,
    MlKemModel.hash_g (e_kem E) (m ++ MlKemModel.sha3_256 (e_kem E) (p_bytes (public_key k'))) = (K, r) /\
    kem_encaps E a (p_bytes (public_key k')) m = Ok (K, c) /\
    (let seeds := MlKemModel.hash_g (e_kem E) (firstn 32 s ++ [Z.of_nat (MlKemModel.k (kem_params a))]) in
     MlKemSpec.no_failure (e_kem E) (kem_params a) (fst seeds) (snd seeds) r m -> kem_decaps E a (k_priv k') c = Ok K).
Proof using HE.
  intros [L K] (_ & S2 & S3) Lm Bm. rewrite <- S2, <- S3. apply kem_seeded in K; [|destruct a; exact L]. pose proof HE as (He & _).
  destruct (MlKemMore.decaps_encaps_gen (e_kem E) (kem_params a) (kem_in a) He _ _ m _ _ K Lm Bm) as (Ks & r & c & H1 & H2 & _ & H3).
  exists Ks, r, c. split; [exact H1|]. split; [exact H2|]. cbv zeta. intro N. unfold kem_decaps. rewrite (H3 N). reflexivity.
Qed.

(** * Checks of exported keys *)
Theorem validate_ml a s k t x : is_ml a = true -> seeded E a s k -> save_private k t = Ok x -> validate_export k x t = Ok tt.
Proof using HE.
  intros M [Ls K] Sv. destruct (inv_seed E HE a s k K) as [I Sd]. pose proof I as (A & Lp & _). rewrite priv_std in Lp.
  unfold save_private, private_numbers in Sv. rewrite A, Sd in Sv. cbn [bind] in Sv. unfold validate_export, private_numbers. rewrite A, Sd.
  assert (G : exists c, enc_choice a c = Ok x /\ dec_choice a x = POk (c, []) /\
    c = match t with SEED => CSeed s | RAW => CRaw (k_priv k) | SEED_AND_RAW => CBoth s (k_priv k) end).
  { destruct t; [destruct (enc_dec a (CSeed s) Ls) as (y & Ey & Dy)|destruct (enc_dec a (CRaw (k_priv k)) Lp) as (y & Ey & Dy)|
      destruct (enc_dec a (CBoth s (k_priv k)) (conj Ls Lp)) as (y & Ey & Dy)]; eexists;
      (assert (y = x) by (destruct a; try discriminate M; congruence)); subst y; split; [exact Ey|split; [exact Dy|reflexivity]|
       exact Ey|split; [exact Dy|reflexivity]|exact Ey|split; [exact Dy|reflexivity]]. }
  destruct G as (c & _ & D & ->). destruct a; try discriminate M; rewrite D; destruct t; cbn [guard bind]; rewrite ?bytes_eqb_refl; reflexivity.
Qed.
Theorem validate_slh f sl s k t x : seeded E (Slh f sl) s k -> save_private k t = Ok x ->
  validate_export k x t = match t with SEED_AND_RAW => Err EInvalidKeyData | _ => Ok tt end.
Proof using HE.
  intros [Ls K] Sv. destruct (inv_seed E HE _ s k K) as [I Sd]. pose proof I as (A & Lp & _).
  unfold save_private, private_numbers in Sv. rewrite A, Sd in Sv. cbn [bind] in Sv. unfold validate_export, private_numbers. rewrite A, Sd. cbn [bind].
  destruct t; injection Sv as <-; rewrite ?bytes_eqb_refl; try reflexivity.
  destruct (bytes_eqb (k_priv k) (s ++ k_priv k)) eqn:Q; [|reflexivity]. apply bytes_eqb_eq in Q. apply (f_equal (@length Z)) in Q.
  rewrite app_length in Q. pose proof (small (Slh f sl)). lia.
Qed.
(** The check of a RAW export asks for the seed, so it fails for a key that has none. *)
Theorem validate_no_seed a d k x : is_ml a = true -> length d = std_priv a -> from_private_bytes E a d = Ok k ->
  save_private k RAW = Ok x -> validate_export k x RAW = Err EValueError.
Proof using HE.
  intros M L K Sv. pose proof (inv_load E HE a d k K) as I. pose proof I as (A & Lp & _). rewrite priv_std in Lp.
  rewrite load_raw in K by exact L. rewrite <- priv_std in L. destruct (inv_new E a d None k L K) as (_ & Sd & _).
  unfold save_private in Sv. unfold validate_export, private_numbers. rewrite A in *. rewrite Sd.
  destruct (enc_dec a (CRaw (k_priv k)) Lp) as (y & Ey & Dy). assert (y = x) by (destruct a; try discriminate M; congruence). subst y.
  destruct a; try discriminate M; rewrite Dy; reflexivity.
Qed.
End Use.
