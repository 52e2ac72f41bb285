From Verif Require Import PqKeyModel PqKeySpec PreludeFacts LatFacts.
From Verif Require MlKemSpec MlDsaSpec SlhSpec MlKemMore MlDsaEnc MlDsaSig MlDsaTop MlDsaNtt MlDsaRound SlhHt SlhTop SlhTree.
Local Open Scope Z_scope.

Lemma firstn_exact {A} (a b : list A) i : length a = i -> firstn i (a ++ b) = a.
Proof. intros <-. rewrite firstn_app, firstn_all, Nat.sub_diag, app_nil_r. reflexivity. Qed.
Lemma skipn_exact {A} (a b : list A) i : length a = i -> skipn i (a ++ b) = b.
Proof. intros <-. rewrite skipn_app, skipn_all, Nat.sub_diag. reflexivity. Qed.

(** * Sizes *)
Lemma kem_in a : In (kem_params a) MlKemModel.param_sets.
Proof. destruct a; cbn; auto. Qed.
Lemma dsa_in a : In (dsa_params a) MlDsaModel.param_sets.
Proof. destruct a; cbn; auto. Qed.
Lemma slh_in f s : In (slh_params f s) SlhModel.param_sets.
Proof. destruct f, s; cbn; tauto. Qed.
Lemma seed_std a : seed_size a = std_seed a. Proof. destruct a as [[]|[]|[] []]; reflexivity. Qed.
Lemma priv_std a : priv_size a = std_priv a. Proof. destruct a as [[]|[]|[] []]; reflexivity. Qed.
Lemma pub_std a : pub_size a = std_pub a. Proof. destruct a as [[]|[]|[] []]; reflexivity. Qed.
Lemma kem_k_eq a : kem_k a = MlKemModel.k (kem_params a). Proof. destruct a; reflexivity. Qed.
Lemma kem_sk_eq a : kem_sk_size a = (768 * MlKemModel.k (kem_params a) + 96)%nat. Proof. destruct a; reflexivity. Qed.
Lemma kem_pk_eq a : kem_pk_size a = (384 * MlKemModel.k (kem_params a) + 32)%nat. Proof. destruct a; reflexivity. Qed.
Lemma dsa_sk_eq a : dsa_sk_size a = MlDsaEnc.sk_len (dsa_params a). Proof. destruct a; reflexivity. Qed.
Lemma dsa_pk_eq a : dsa_pk_size a = (32 + 320 * MlDsaModel.k (dsa_params a))%nat. Proof. destruct a; reflexivity. Qed.

(** The three accepted lengths differ. *)
Lemma sizes_differ a : std_seed a <> std_priv a /\ (std_priv a + std_seed a <> std_seed a)%nat /\
  (std_priv a + std_seed a <> std_priv a)%nat.
Proof. destruct a as [[]|[]|[] []]; repeat split; apply Nat.eqb_neq; reflexivity. Qed.
Lemma pub_pos a : (0 < std_pub a)%nat.
Proof. destruct a as [[]|[]|[] []]; apply Nat.ltb_lt; reflexivity. Qed.
Lemma small a : (1 <= std_seed a < 256)%nat /\ (64 <= std_priv a < 5000)%nat.
Proof. destruct a as [[]|[]|[] []]; repeat split; (apply Nat.leb_le || apply Nat.ltb_lt); reflexivity. Qed.

Section Proofs.
Variable E : env.
Hypothesis HE : good_env E.

(** * The public key derived from an ML-DSA private key *)
Lemma derive_generated a xi pk sk : MlDsaModel.keygen_internal (e_dsa E) (dsa_params a) xi = Ok (pk, sk) ->
  dsa_derive_public_key E a sk = Ok pk.
Proof.
  destruct HE as (_ & Hh & _). set (p := dsa_params a). pose proof (dsa_in a) as Hp. fold p in Hp. intro K.
  pose proof K as K0. unfold MlDsaModel.keygen_internal in K0. cbv zeta in K0. fold (MlDsaSig.seeds (e_dsa E) p xi) in K0.
  set (se := MlDsaSig.seeds (e_dsa E) p xi) in *.
  destruct (MlDsaModel.expand_a (e_dsa E) p (slice 0 32 se)) as [ah|] eqn:Ea; [|discriminate]. cbn [bind] in K0.
  destruct (MlDsaModel.expand_s (e_dsa E) p (slice 32 96 se)) as [[s1 s2]|] eqn:Es; [|discriminate]. cbn [bind] in K0.
  destruct (MlDsaSig.keygen_eq (e_dsa E) p (MlDsaEnc.param_sets_good p Hp) Hh (MlDsaTop.param_sets_dims p Hp) xi ah s1 s2 Ea Es)
    as (pk' & sk' & K' & _ & _ & _ & _ & _ & _ & _ & D & _). rewrite K in K'. injection K' as <- <-.
  unfold dsa_derive_public_key. fold p. fold se in D. rewrite D. cbn [bind MlDsaModel.sk_rho MlDsaModel.sk_s1 MlDsaModel.sk_s2]. rewrite Ea. cbn [bind].
  assert (Lm : length (MlDsaModel.matrix_vector_ntt p ah (map MlDsaModel.ntt s1)) = MlDsaModel.k p)
    by (unfold MlDsaModel.matrix_vector_ntt; rewrite map_length, seq_length; reflexivity).
  rewrite Lm. destruct (MlDsaModel.power2round p _) as [t1 t0]. destruct (MlDsaModel.pk_encode p _ t1) as [pk'|] eqn:Ep; [|discriminate].
  cbn [bind] in K0. destruct (MlDsaModel.sk_encode p _ _ _ _ _ _) as [sk'|]; [|discriminate]. cbn [bind] in K0. congruence.
Qed.

Lemma derive_length a sk pk : length sk = dsa_sk_size a -> dsa_derive_public_key E a sk = Ok pk -> length pk = dsa_pk_size a.
Proof.
  intros L D. unfold dsa_derive_public_key in D. set (p := dsa_params a) in *.
  assert (Hd : MlDsaModel.d p = 13%nat) by (destruct a; reflexivity).
  destruct (MlDsaModel.sk_decode p sk) as [s|] eqn:Ed; [|discriminate]. cbn [bind] in D.
  destruct (MlDsaModel.expand_a _ _ _) as [ah|] eqn:Ea; [|discriminate]. cbn [bind] in D.
  assert (Lr : length (MlDsaModel.sk_rho s) = 32%nat).
  { unfold MlDsaModel.sk_decode in Ed. cbv zeta in Ed.
    repeat (match type of Ed with (bind ?r _ = _) => destruct r; [|discriminate]; cbn [bind] in Ed end).
    assert (Es : MlDsaModel.sk_rho s = slice 0 32 sk) by (injection Ed as <-; reflexivity).
    rewrite Es. apply slice_length; [lia|]. rewrite L. destruct a; apply Nat.leb_le; reflexivity. }
  set (mv := MlDsaModel.matrix_vector_ntt p ah (map MlDsaModel.ntt (MlDsaModel.sk_s1 s))) in D.
  assert (Lm : length mv = MlDsaModel.k p)
    by (unfold mv, MlDsaModel.matrix_vector_ntt; rewrite map_length, seq_length; reflexivity).
  assert (Fm : forall i, (i < MlDsaModel.k p)%nat -> length (MlDsaModel.nthp i mv) = 256%nat).
  { intros i Hi. assert (I : In (MlDsaModel.nthp i mv) mv) by (apply nth_In; rewrite Lm; exact Hi).
    revert I. generalize (MlDsaModel.nthp i mv). intros f I. unfold mv, MlDsaModel.matrix_vector_ntt in I. apply in_map_iff in I.
    destruct I as (j & <- & _).
    assert (G : forall (g : nat -> list Z) l w, length w = 256%nat -> length (fold_left (fun w j => MlDsaModel.padd w (g j)) l w) = 256%nat).
    { intros g l. induction l as [|u l IH]; intros w Hw; [exact Hw|]. cbn [fold_left]. apply IH. unfold MlDsaModel.padd.
      rewrite map_length, seq_length. exact Hw. }
    apply (G (fun v => MlDsaModel.mul_ntt (MlDsaModel.nthp v (nth j ah [])) (MlDsaModel.nthp v (map MlDsaModel.ntt (MlDsaModel.sk_s1 s))))).
    reflexivity. }
  set (t := map _ (seq 0 (length mv))) in D. unfold MlDsaModel.power2round in D. rewrite Hd in D.
  match type of D with (MlDsaModel.pk_encode p _ ?x = _) => set (t1 := x) in D end.
  assert (V1 : MlDsaEnc.t1_ok (MlDsaModel.k p) t1).
  { split; [unfold t1, t; rewrite !map_length, seq_length; exact Lm|]. unfold t1, t. apply Forall_map, Forall_map, Forall_forall.
    intros i Hi. apply in_seq in Hi. split.
    - rewrite map_length. unfold MlDsaModel.padd. rewrite map_length, seq_length. apply MlDsaNtt.ntt_inverse_length, Fm. lia.
    - apply Forall_map, Forall_forall. intros x _. destruct (MlDsaModel.power2round1 13 x) as [u v] eqn:P.
      apply MlDsaRound.power2round_spec in P. apply P. }
  destruct (MlDsaEnc.pk_roundtrip p (MlDsaModel.sk_rho s) t1 Hd Lr V1) as (pk' & K1 & K2 & _).
  rewrite dsa_pk_eq. fold p. congruence.
Qed.

(** * Keys from seeds *)
Lemma seed_kem a s k : kem_from_seed E a s = Ok k -> k_alg k = Kem a /\ k_seed k = Some s /\ length (k_priv k) = kem_sk_size a /\
  exists pk, k_pub k = Some pk /\ length pk = kem_pk_size a /\
    slice (384 * kem_k a) (768 * kem_k a + 32) (k_priv k) = pk.
Proof.
  destruct HE as (Hh & _). unfold kem_from_seed. destruct (Nat.eqb_spec (length s) 64) as [L|]; [|discriminate]. cbn [guard bind].
  destruct (MlKemModel.keygen_internal _ _ _ _) as [[ek dk]|] eqn:K; [|discriminate]. cbn [bind]. intros [= <-]. cbn [k_alg k_seed k_priv k_pub].
  assert (Lz : length (skipn 32 s) = 32%nat) by (rewrite skipn_length, L; reflexivity).
  destruct (MlKemMore.gen_sizes (e_kem E) (kem_params a) (kem_in a) Hh _ _ ek dk K Lz) as [L1 L2].
  split; [reflexivity|]. split; [reflexivity|]. split; [rewrite kem_sk_eq; exact L2|].
  exists ek. split; [reflexivity|]. split; [rewrite kem_pk_eq; exact L1|].
  rewrite kem_k_eq. exact (MlKemMore.get_public_key_gen (e_kem E) (kem_params a) (kem_in a) Hh _ _ ek dk K).
Qed.
Lemma seed_dsa a s k : dsa_from_seed E a s = Ok k -> k_alg k = Dsa a /\ k_seed k = Some s /\ length (k_priv k) = dsa_sk_size a /\
  exists pk, k_pub k = Some pk /\ length pk = dsa_pk_size a /\ dsa_derive_public_key E a (k_priv k) = Ok pk.
Proof.
  pose proof HE as (_ & Hh & _). unfold dsa_from_seed. destruct (MlDsaModel.keygen_internal _ _ _) as [[pk sk]|] eqn:K; [|discriminate].
  cbn [bind]. intros [= <-]. cbn [k_alg k_seed k_priv k_pub].
  destruct (MlDsaSig.keygen_ok (e_dsa E) (dsa_params a) (MlDsaEnc.param_sets_good _ (dsa_in a)) Hh (MlDsaTop.param_sets_dims _ (dsa_in a)) s pk sk K)
    as (_ & _ & _ & _ & _ & _ & _ & _ & _ & _ & _ & _ & _ & _ & _ & L1 & L2 & _).
  split; [reflexivity|]. split; [reflexivity|]. split; [rewrite dsa_sk_eq; exact L2|].
  exists pk. split; [reflexivity|]. split; [rewrite dsa_pk_eq; exact L1|]. apply (derive_generated a s). exact K.
Qed.
Lemma slh_keygen f s seed : length seed = (3 * slh_n f s)%nat ->
  exists root, length root = slh_n f s /\
  SlhModel.slh_keygen_internal (e_slh E) (slh_params f s) (firstn (slh_n f s) seed) (slice (slh_n f s) (2 * slh_n f s) seed)
    (skipn (2 * slh_n f s) seed) = Ok (skipn (2 * slh_n f s) seed ++ root, seed ++ root).
Proof.
  destruct HE as (_ & _ & Hh). intro L. set (n := slh_n f s) in *.
  pose proof (SlhTop.wf_of _ (slh_in f s)) as W.
  exists (SlhSpec.top_root (e_slh E) (slh_params f s) (firstn n seed) (skipn (2 * n) seed)).
  split; [apply SlhTree.xnode_length; assumption|]. rewrite SlhHt.keygen_ok by exact W. do 2 f_equal.
  rewrite !app_assoc. f_equal. rewrite <- app_assoc. unfold slice. replace (2 * n - n)%nat with n by lia.
  rewrite <- (firstn_skipn n seed) at 4. f_equal. rewrite <- (firstn_skipn n (skipn n seed)) at 2. f_equal. rewrite SlhTree.skipn_plus. f_equal. lia.
Qed.

Lemma seed_slh f s seed k : slh_from_seed E f s seed = Ok k -> k_alg k = Slh f s /\ k_seed k = Some seed /\
  length (k_priv k) = (4 * slh_n f s)%nat /\
  exists pk, k_pub k = Some pk /\ length pk = (2 * slh_n f s)%nat /\ slh_derive_public_key f s (k_priv k) = Ok pk.
Proof using HE.
  unfold slh_from_seed. cbv zeta. destruct (Nat.eqb_spec (length seed) (3 * slh_n f s)) as [L|]; [|discriminate]. cbn [guard bind].
  destruct (slh_keygen f s seed L) as (root & Lr & ->). cbn [bind]. intros [= <-]. cbn [k_alg k_seed k_priv k_pub].
  split; [reflexivity|]. split; [reflexivity|]. split; [rewrite app_length; lia|].
  exists (skipn (2 * slh_n f s) seed ++ root). split; [reflexivity|]. split; [rewrite app_length, skipn_length; lia|].
  unfold slh_derive_public_key. cbv zeta. rewrite (proj2 (Nat.leb_le _ _)) by (rewrite app_length; lia). cbn [guard bind]. f_equal. f_equal.
  - unfold slice. rewrite skipn_app. replace (2 * slh_n f s - length seed)%nat with 0%nat by lia. cbn [skipn].
    apply firstn_exact. rewrite skipn_length. lia.
  - unfold slice. rewrite skipn_exact by exact L. replace (4 * slh_n f s - 3 * slh_n f s)%nat with (length root) by lia. apply firstn_all.
Qed.
Lemma slh_n_pos f s : (0 < slh_n f s)%nat.
Proof. destruct f, s; apply Nat.ltb_lt; reflexivity. Qed.

(** * What every loaded key satisfies *)
Definition inv (a : alg) (k : key) : Prop :=
  k_alg k = a /\ length (k_priv k) = priv_size a /\ length (p_bytes (public_key k)) = pub_size a /\
  forall sd, exists k0, new_key E a (k_priv k) None sd = Ok k0 /\ same_key k k0 /\ k_seed k0 = sd.

Lemma inv_seed a s k : from_seed E a s = Ok k -> inv a k /\ k_seed k = Some s.
Proof using HE.
  destruct a as [a|a|f sl]; intro K; cbn [from_seed] in K.
  - destruct (seed_kem _ _ _ K) as (A & B & C & pk & D & F & G). split; [|exact B]. split; [exact A|]. split; [exact C|].
    assert (P : p_bytes (public_key k) = pk) by (unfold public_key; rewrite D; reflexivity).
    split; [rewrite P; exact F|]. intro sd. eexists. split; [reflexivity|]. split; [|reflexivity].
    split; [exact A|]. split; [reflexivity|]. rewrite P. cbn [public_key kem_new k_pub k_alg p_bytes k_priv]. symmetry. exact G.
  - destruct (seed_dsa _ _ _ K) as (A & B & C & pk & D & F & G). split; [|exact B]. split; [exact A|]. split; [exact C|].
    assert (P : p_bytes (public_key k) = pk) by (unfold public_key; rewrite D; reflexivity).
    split; [rewrite P; exact F|]. intro sd. eexists. cbn [new_key dsa_new]. rewrite G. cbn [bind]. split; [reflexivity|].
    split; [|reflexivity]. split; [exact A|]. split; [reflexivity|]. exact P.
  - destruct (seed_slh _ _ _ _ K) as (A & B & C & pk & D & F & G). split; [|exact B]. split; [exact A|]. split; [exact C|].
    assert (P : p_bytes (public_key k) = pk) by (unfold public_key; rewrite D; reflexivity).
    split; [rewrite P; exact F|]. intro sd. eexists. cbn [new_key slh_new]. rewrite G. cbn [bind]. split; [reflexivity|].
    split; [|reflexivity]. split; [exact A|]. split; [reflexivity|]. exact P.
Qed.

(** A key made from an expanded private key of the right size. *)
Lemma inv_new a r sd k : length r = priv_size a -> new_key E a r None sd = Ok k -> inv a k /\ k_seed k = sd /\ k_priv k = r.
Proof.
  intros L K. destruct a as [a|a|f sl]; cbn [new_key] in K.
  - injection K as <-. cbn [kem_new k_seed k_priv]. split; [|split; reflexivity].
    split; [reflexivity|]. split; [exact L|]. split.
    + cbn [public_key kem_new k_pub k_alg p_bytes k_priv pub_size priv_size] in *. rewrite slice_length; rewrite ?L, ?kem_sk_eq, ?kem_pk_eq, ?kem_k_eq; lia.
    + intro sd'. eexists. split; [reflexivity|]. split; [|reflexivity]. split; [reflexivity|]. split; reflexivity.
  - unfold dsa_new in K. destruct (dsa_derive_public_key E a r) as [pk|] eqn:D; [|discriminate]. cbn [bind] in K. injection K as <-.
    cbn [k_seed k_priv]. split; [|split; reflexivity]. split; [reflexivity|]. split; [exact L|]. split.
    + cbn [public_key k_pub p_bytes pub_size]. apply (derive_length a r pk); [exact L|exact D].
    + intro sd'. eexists. cbn [new_key dsa_new k_priv]. rewrite D. cbn [bind]. split; [reflexivity|]. split; [|reflexivity].
      split; [reflexivity|]. split; reflexivity.
  - unfold slh_new in K. destruct (slh_derive_public_key f sl r) as [pk|] eqn:D; [|discriminate]. cbn [bind] in K. injection K as <-.
    cbn [k_seed k_priv]. split; [|split; reflexivity]. split; [reflexivity|]. split; [exact L|]. split.
    + cbn [public_key k_pub p_bytes pub_size priv_size] in *. unfold slh_derive_public_key in D. cbv zeta in D.
      rewrite (proj2 (Nat.leb_le _ _)) in D by lia. cbn [guard bind] in D.
      assert (P : pk = slice (2 * slh_n f sl) (3 * slh_n f sl) r ++ slice (3 * slh_n f sl) (4 * slh_n f sl) r) by congruence.
      rewrite P, app_length, !slice_length; lia.
    + intro sd'. eexists. cbn [new_key slh_new k_priv]. rewrite D. cbn [bind]. split; [reflexivity|]. split; [|reflexivity].
      split; [reflexivity|]. split; reflexivity.
Qed.

Ltac eqbs := repeat match goal with
  | |- context [(?x =? ?y)%nat] => destruct (Nat.eqb_spec x y) as [?Heq|?Hne] end.
Lemma load_seed a s : length s = std_seed a -> from_private_bytes E a s = from_seed E a s.
Proof.
  intro L. destruct a as [a|a|f sl]; rewrite <- seed_std in L; cbn [seed_size from_private_bytes from_seed] in *.
  - unfold kem_from_private_bytes. rewrite L. reflexivity.
  - unfold dsa_from_private_bytes. rewrite L. reflexivity.
  - unfold slh_from_private_bytes. cbv zeta. rewrite L, Nat.eqb_refl. reflexivity.
Qed.
Lemma load_raw a r : length r = std_priv a -> from_private_bytes E a r = new_key E a r None None.
Proof.
  intro L. rewrite <- priv_std in L. destruct a as [a|a|f sl]; cbn [priv_size from_private_bytes new_key] in *.
  - unfold kem_from_private_bytes. cbv zeta. rewrite L. destruct a; reflexivity.
  - unfold dsa_from_private_bytes. cbv zeta. rewrite L. destruct a; reflexivity.
  - unfold slh_from_private_bytes. cbv zeta. rewrite L. destruct f, sl; reflexivity.
Qed.
(** The three cases of from_private_bytes. *)
Lemma load_both a s r : length s = std_seed a -> length r = std_priv a ->
  from_private_bytes E a (s ++ r) =
  match a with
  | Kem n => Ok (kem_new n r None (Some s))
  | _ => let! k := from_seed E a s in let! _ := guard (bytes_eqb (k_priv k) r) EInvalidKeyData in Ok k
  end.
Proof.
  intros Ls Lr. rewrite <- priv_std in Lr. rewrite <- seed_std in Ls.
  destruct a as [a|a|f sl]; cbn [priv_size seed_size from_private_bytes from_seed] in *.
  - unfold kem_from_private_bytes. cbv zeta. rewrite firstn_exact, skipn_exact by exact Ls. rewrite app_length, Ls, Lr.
    cbn [kem_new k_priv]. rewrite bytes_eqb_refl. destruct a; reflexivity.
  - unfold dsa_from_private_bytes. cbv zeta. rewrite firstn_exact, skipn_exact by exact Ls. rewrite app_length, Ls, Lr.
    destruct a; reflexivity.
  - unfold slh_from_private_bytes. cbv zeta. rewrite firstn_exact by exact Ls. unfold slice. rewrite skipn_exact by exact Ls.
    rewrite firstn_all2 by lia. rewrite app_length, Ls, Lr. destruct f, sl; reflexivity.
Qed.
Lemma load_other a d : length d <> std_seed a -> length d <> std_priv a -> length d <> (std_seed a + std_priv a)%nat ->
  from_private_bytes E a d = Err EInvalidKeyData.
Proof.
  rewrite <- seed_std, <- priv_std. intros L1 L2 L3. destruct a as [a|a|f sl]; cbn [seed_size priv_size from_private_bytes] in *.
  - unfold kem_from_private_bytes. cbv zeta. eqbs; try congruence; try lia; reflexivity.
  - unfold dsa_from_private_bytes. cbv zeta. eqbs; try congruence; try lia; reflexivity.
  - unfold slh_from_private_bytes. cbv zeta. eqbs; try congruence; try lia; reflexivity.
Qed.
Lemma lengths a (d : bytes) : length d = std_seed a \/ length d = std_priv a \/ length d = (std_seed a + std_priv a)%nat \/
  length d <> std_seed a /\ length d <> std_priv a /\ length d <> (std_seed a + std_priv a)%nat.
Proof.
  destruct (Nat.eq_dec (length d) (std_seed a)); [auto|]. destruct (Nat.eq_dec (length d) (std_priv a)); [auto|].
  destruct (Nat.eq_dec (length d) (std_seed a + std_priv a)); tauto.
Qed.
Lemma inv_load a d k : from_private_bytes E a d = Ok k -> inv a k.
Proof using HE.
  intro K. destruct (lengths a d) as [L|[L|[L|(L1 & L2 & L3)]]].
  - rewrite load_seed in K by exact L. apply (inv_seed a d k K).
  - rewrite load_raw in K by exact L. rewrite <- priv_std in L. apply (inv_new a d None k L K).
  - rewrite <- (firstn_skipn (std_seed a) d) in K.
    assert (Ls : length (firstn (std_seed a) d) = std_seed a) by (rewrite firstn_length; lia).
    assert (Lr : length (skipn (std_seed a) d) = std_priv a) by (rewrite skipn_length; lia).
    rewrite load_both in K by assumption. destruct a as [a|a|f sl].
    + rewrite <- priv_std in Lr. exact (proj1 (inv_new (Kem a) (skipn (std_seed (Kem a)) d) (Some (firstn (std_seed (Kem a)) d)) k Lr K)).
    + destruct (from_seed E (Dsa a) _) as [k1|] eqn:K1; [|discriminate]. cbn [bind] in K.
      destruct (bytes_eqb _ _); [|discriminate]. cbn [guard bind] in K. injection K as <-. apply (inv_seed _ _ _ K1).
    + destruct (from_seed E (Slh f sl) _) as [k1|] eqn:K1; [|discriminate]. cbn [bind] in K.
      destruct (bytes_eqb _ _); [|discriminate]. cbn [guard bind] in K. injection K as <-. apply (inv_seed _ _ _ K1).
  - rewrite load_other in K by assumption. discriminate.
Qed.
Lemma same_sym k k' : same_key k k' -> same_key k' k.
Proof. intros (A & B & C). split; [|split]; symmetry; assumption. Qed.
Lemma same_trans k k' k'' : same_key k k' -> same_key k' k'' -> same_key k k''.
Proof. intros (A & B & C) (A' & B' & C'). split; [|split]; congruence. Qed.

Lemma reload_raw a k : inv a k -> exists k0, from_private_bytes E a (k_priv k) = Ok k0 /\ same_key k k0 /\ k_seed k0 = None.
Proof. intros (_ & L & _ & N). rewrite load_raw by (rewrite <- priv_std; exact L). apply N. Qed.
Lemma reload_both a s k : length s = std_seed a -> from_seed E a s = Ok k ->
  exists k0, from_private_bytes E a (s ++ k_priv k) = Ok k0 /\ same_key k k0 /\ k_seed k0 = Some s.
Proof using HE.
  intros L K. destruct (inv_seed a s k K) as [I Sd]. pose proof I as (A & Lp & _ & N). rewrite priv_std in Lp.
  rewrite load_both by assumption. destruct a as [a|a|f sl].
  - destruct (N (Some s)) as (k0 & K0 & Hs & Hd). exists k0. split; [exact K0|]. split; assumption.
  - rewrite K. cbn [bind]. rewrite bytes_eqb_refl. exists k. split; [reflexivity|]. split; [split; [|split]; reflexivity|exact Sd].
  - rewrite K. cbn [bind]. rewrite bytes_eqb_refl. exists k. split; [reflexivity|]. split; [split; [|split]; reflexivity|exact Sd].
Qed.

(** * Coding of the privateKey field *)
Lemma dec_len_ok n r : Z.of_nat n < 65536 -> dec_len (der_len n ++ r) = POk (Z.of_nat n, r).
Proof.
  intro H. unfold der_len. destruct (Nat.ltb_spec n 128) as [A|A].
  - cbn [app dec_len]. rewrite (proj2 (Z.ltb_lt _ _)) by lia. reflexivity.
  - destruct (Nat.ltb_spec n 256) as [B|B].
    + cbn [app dec_len]. change (129 <? 128) with false. change (129 =? 128) with false. cbv iota.
      change (Z.to_nat (129 - 128)) with 1%nat. cbn [length]. change (S (length r) <? 1)%nat with false. cbv iota.
      cbn [firstn skipn fold_left]. replace (256 * 0 + Z.of_nat n) with (Z.of_nat n) by lia. reflexivity.
    + cbn [app dec_len]. change (130 <? 128) with false. change (130 =? 128) with false. cbv iota.
      change (Z.to_nat (130 - 128)) with 2%nat. cbn [length]. change (S (S (length r)) <? 2)%nat with false. cbv iota.
      cbn [firstn skipn fold_left]. pose proof (Z.div_mod (Z.of_nat n) 256 ltac:(lia)) as D.
      replace (256 * (256 * 0 + Z.of_nat n / 256) + Z.of_nat n mod 256) with (Z.of_nat n) by lia. reflexivity.
Qed.
Lemma dec_octets_ok t c r : Z.of_nat (length c) < 65536 -> dec_octets t (length c) (tlv t c ++ r) = POk (c, r).
Proof.
  intro H. unfold tlv. cbn [app dec_octets]. rewrite Z.eqb_refl. cbn [negb]. rewrite <- app_assoc, dec_len_ok by exact H. cbn [pbind].
  rewrite (proj2 (Z.ltb_ge _ _)) by (rewrite app_length; lia). rewrite Z.eqb_refl. cbn [negb].
  rewrite firstn_exact, skipn_exact by reflexivity. reflexivity.
Qed.
Lemma der_len_len n : (1 <= length (der_len n) <= 3)%nat.
Proof. unfold der_len. destruct (_ <? _)%nat; [cbn; lia|]. destruct (_ <? _)%nat; cbn; lia. Qed.
Definition fits (a : alg) (c : choice) : Prop :=
  match c with
  | CSeed s => length s = std_seed a
  | CRaw r => length r = std_priv a
  | CBoth s r => length s = std_seed a /\ length r = std_priv a
  end.
Lemma dec_choice_seed a c r : dec_choice a (tlv 128 c ++ r) =
  pbind (dec_octets 128 (seed_size a) (tlv 128 c ++ r)) (fun '(v, r) => POk (CSeed v, r)).
Proof. reflexivity. Qed.
Lemma dec_choice_raw a c r : dec_choice a (tlv 4 c ++ r) =
  pbind (dec_octets 4 (priv_size a) (tlv 4 c ++ r)) (fun '(v, r) => POk (CRaw v, r)).
Proof. reflexivity. Qed.
Lemma enc_dec a c : fits a c -> exists x, enc_choice a c = Ok x /\ dec_choice a x = POk (c, []).
Proof.
  destruct (small a) as [S1 S2]. destruct c as [s|r|s r]; cbn [fits]; unfold enc_choice; rewrite ?seed_std, ?priv_std.
  - intro L. rewrite L, Nat.eqb_refl. cbn [guard bind]. eexists. split; [reflexivity|]. rewrite <- (app_nil_r (tlv 128 s)).
    rewrite dec_choice_seed, seed_std, <- L, dec_octets_ok by lia. reflexivity.
  - intro L. rewrite L, Nat.eqb_refl. cbn [guard bind]. eexists. split; [reflexivity|]. rewrite <- (app_nil_r (tlv 4 r)).
    rewrite dec_choice_raw, priv_std, <- L, dec_octets_ok by lia. reflexivity.
  - intros [L1 L2]. rewrite L1, L2, !Nat.eqb_refl. cbn [andb guard bind]. eexists. split; [reflexivity|].
    unfold dec_choice, tlv at 1.
    change (48 =? 128) with false. change (48 =? 4) with false. change (48 =? 48) with true. cbv iota.
    set (B := tlv 4 s ++ tlv 4 r).
    assert (Ls : length (tlv 4 s) = (1 + length (der_len (length s)) + length s)%nat) by (unfold tlv; cbn [length]; rewrite app_length; lia).
    assert (Lr : length (tlv 4 r) = (1 + length (der_len (length r)) + length r)%nat) by (unfold tlv; cbn [length]; rewrite app_length; lia).
    pose proof (der_len_len (length s)) as D1. pose proof (der_len_len (length r)) as D2.
    assert (LB : length B = (length (tlv 4 s) + length (tlv 4 r))%nat) by (unfold B; apply app_length).
    rewrite dec_len_ok by lia. cbn [pbind]. rewrite (proj2 (Z.leb_gt _ _)) by lia.
    rewrite seed_std, priv_std, <- L1, <- L2. unfold B at 1. rewrite dec_octets_ok by lia. cbn [pbind].
    rewrite (proj2 (Z.leb_gt _ _)) by lia. rewrite <- (app_nil_r (tlv 4 r)) at 1. rewrite dec_octets_ok by lia. cbn [pbind length].
    replace (length B - 0)%nat with (length B) by lia. rewrite Z.eqb_refl. reflexivity.
Qed.

(** * Loading OneAsymmetricKey structures *)
Lemma check_self a k : inv a k -> check_pub k (Some (p_bytes (public_key k))) = Ok k.
Proof.
  intros (A & _ & L & _). unfold check_pub, from_public_bytes. rewrite A, L, Nat.eqb_refl. cbn [guard bind].
  unfold pkey_eq. cbn [p_alg p_bytes]. rewrite bytes_eqb_refl.
  replace (same_class (p_alg (public_key k)) a) with true by (cbn [public_key p_alg]; rewrite A; destruct a; reflexivity).
  reflexivity.
Qed.
Lemma pub_nonempty a k : inv a k -> exists x b, p_bytes (public_key k) = x :: b.
Proof.
  intros (_ & _ & L & _). rewrite pub_std in L. pose proof (pub_pos a). destruct (p_bytes (public_key k)) as [|x b]; [cbn [length] in L; lia|eauto].
Qed.
Lemma validate_ok a d k pub : from_private_bytes E a d = Ok k -> pub = None \/ pub = Some (p_bytes (public_key k)) ->
  exists k', load_and_validate E a d pub = Ok k' /\ same_key k k' /\ k_seed k' = k_seed k.
Proof using HE.
  intros K Hp. pose proof (inv_load a d k K) as I. pose proof I as (A & _ & L & N). unfold load_and_validate. rewrite K. cbn [bind]. destruct Hp as [->| ->].
  - cbn [bind]. destruct (N (k_seed k)) as (k0 & K0 & Hs & Hd). exists k0. split; [exact K0|]. split; [exact Hs|exact Hd].
  - destruct (pub_nonempty a k I) as (x & b & P). rewrite P in *. unfold from_public_bytes. rewrite L, Nat.eqb_refl. cbn [guard bind].
    unfold pkey_eq. cbn [p_alg p_bytes]. rewrite P, bytes_eqb_refl.
    replace (same_class (p_alg (public_key k)) a) with true by (cbn [public_key p_alg]; rewrite A; destruct a; reflexivity).
    cbn [andb guard bind]. exists {| k_alg := a; k_priv := k_priv k; k_pub := Some (x :: b); k_seed := k_seed k |}.
    split; [destruct a; reflexivity|]. split; [|reflexivity]. split; [exact A|]. split; [reflexivity|]. rewrite P. reflexivity.
Qed.
Lemma key_eq_class a k k' : k_alg k = a -> k_alg k' = a -> key_eq k k' = true.
Proof. intros A B. unfold key_eq. rewrite A, B. destruct a; reflexivity. Qed.

(** The key that a CHOICE value stands for. *)
Lemma load_ml_choice a x c k pub : dec_choice a x = POk (c, []) -> inv a k ->
  match c with
  | CSeed s => from_private_bytes E a s = Ok k
  | CRaw r => from_private_bytes E a r = Ok k
  | CBoth s r => from_private_bytes E a s = Ok k /\ exists k2, from_private_bytes E a r = Ok k2
  end ->
  load_ml E a false x pub = inr (check_pub k pub).
Proof using HE.
  intros D I K. unfold load_ml. rewrite D. cbn [guard bind]. f_equal. destruct c as [s|r|s r].
  - rewrite K. reflexivity.
  - rewrite K. reflexivity.
  - destruct K as (K & k2 & K2). rewrite K. cbn [bind]. rewrite K2. cbn [bind].
    rewrite (key_eq_class a) by (apply I || apply (inv_load a r k2 K2)). reflexivity.
Qed.
End Proofs.
