(** Further facts for the ML-KEM properties: compression as rounding, the error
    branch of decapsulation, decapsulation of generated keys. *)
From Verif Require Import LatFacts MlKemNtt MlKemCodec MlKemProofs MlKemKem.
From Verif Require Export MlKemModel MlKemSpec.
Local Open Scope Z_scope.
Local Opaque ntt ntt_inverse multiply_ntts sample_poly_cbd.

Lemma compress_rounds d x : exists t,
  - q <= 2 * (q * (compress1 d x + t * 2 ^ Z.of_nat d) - 2 ^ Z.of_nat d * x) <= q.
Proof.
  unfold compress1. rewrite Z.shiftl_mul_pow2, Z.shiftl_1_l by lia.
  set (P := 2 ^ Z.of_nat d). assert (HP : 0 < P) by (apply Z.pow_pos_nonneg; lia).
  set (y := (x * P + (q - 1) / 2) / q). exists (y / P).
  replace (y mod P + y / P * P) with y by (pose proof (Z.div_mod y P); lia).
  pose proof (Z.div_mod (x * P + (q - 1) / 2) q q_nz) as E. fold y in E.
  pose proof (Z.mod_pos_bound (x * P + (q - 1) / 2) q q_pos) as B.
  set (m := (x * P + (q - 1) / 2) mod q) in *. rewrite q_val in *.
  change ((3329 - 1) / 2) with 1664 in *. lia.
Qed.

Lemma mapM_err {A B} (F : A -> result B) e l :
  (forall x, In x l -> (exists y, F x = Ok y) \/ F x = Err e) ->
  (exists ys, mapM F l = Ok ys /\ forall x, In x l -> exists y, F x = Ok y) \/
  (mapM F l = Err e /\ exists x, In x l /\ F x = Err e).
Proof.
  induction l as [|a l IH]; intro H.
  - left. exists []. split; [reflexivity|intros x []].
  - cbn [mapM]. destruct (H a) as [[y Hy]|Ha]; [left; reflexivity| |].
    + rewrite Hy. cbn [bind]. destruct IH as [(ys & E & K)|(E & x & Hx & Ex)].
      * intros x Hx. apply H. right. exact Hx.
      * left. rewrite E. cbn [bind]. eexists. split; [reflexivity|]. intros x [<-|Hx]; [exists y; exact Hy|apply K, Hx].
      * right. rewrite E. split; [reflexivity|]. exists x. split; [right; exact Hx|exact Ex].
    + right. rewrite Ha. split; [reflexivity|]. exists a. split; [left; reflexivity|exact Ha].
Qed.

Lemma byte_decode_cases d b : (exists f, byte_decode d b = Ok f) \/ byte_decode d b = Err EIndexError.
Proof.
  destruct (Nat.ltb_spec (length b) (32 * d)) as [H|H].
  - right. apply byte_decode_short, H.
  - left. unfold byte_decode. destruct (chunks_ok 256 d (firstn (256 * d) (bytes_to_bits b))) as (cs & E & _).
    { rewrite firstn_length, bytes_to_bits_length. lia. }
    assert (C : forall n l r x, chunks n d l = Ok x -> length l = (n * d)%nat -> chunks n d (l ++ r) = Ok x).
    { clear. induction n as [|n IH]; intros l r x E L; [exact E|].
      cbn [chunks] in *. rewrite firstn_app. replace (d - length l)%nat with 0%nat by lia. rewrite firstn_O, app_nil_r.
      destruct (length (firstn d l) <? d)%nat; [discriminate|].
      rewrite skipn_app. replace (d - length l)%nat with 0%nat by lia. rewrite skipn_O.
      destruct (chunks n d (skipn d l)) as [y|] eqn:E2; [|discriminate].
      rewrite (IH _ r _ E2); [exact E|]. rewrite skipn_length. lia. }
    rewrite <- (firstn_skipn (256 * d) (bytes_to_bits b)). rewrite (C _ _ _ _ E).
    + eexists. reflexivity.
    + rewrite firstn_length, bytes_to_bits_length. lia.
Qed.

Lemma decrypt_short p dkp c : (length c < 32 * (du p * k p + dv p))%nat -> (0 < dv p)%nat ->
  k_pke_decrypt p dkp c = Err EIndexError.
Proof.
  intros L Hdv. unfold k_pke_decrypt. cbv zeta.
  match goal with |- bind (mapM ?F _) _ = _ => destruct (mapM_err F EIndexError (seq 0 (k p))) as [(ys & -> & _)|(-> & _)] end.
  - intros i _. destruct (byte_decode_cases (du p) (slice (32 * du p * i) (32 * du p * (i + 1)) (slice 0 (32 * du p * k p) c)))
      as [[f ->]| ->]; [left; eexists; reflexivity|right; reflexivity].
  - cbn [bind]. rewrite (byte_decode_short (dv p)); [reflexivity|].
    unfold slice. rewrite firstn_length, skipn_length. lia.
  - reflexivity.
Qed.

Lemma decaps_short hs p dk c : (length c < 32 * (du p * k p + dv p))%nat -> (0 < dv p)%nat ->
  decaps_internal hs p dk c = Err EIndexError.
Proof. intros L H. unfold decaps_internal. cbv zeta. rewrite decrypt_short by assumption. reflexivity. Qed.

Section Gen.
Variable hs : hashes.
Variable p : params.
Hypothesis Hp : In p param_sets.
Hypothesis Hs : hash_lengths hs.

Lemma gen_lengths d z ek dk : keygen_internal hs p d z = Ok (ek, dk) ->
  exists dkp, length dkp = (384 * k p)%nat /\ length ek = (384 * k p + 32)%nat /\ dk = dkp ++ ek ++ sha3_256 hs ek ++ z.
Proof using Hp Hs.
  intro E. destruct Hs as (Hh & Hg & Hx). apply (keygen_shape hs p Hx) in E. cbv zeta in E. destruct E as (_ & Eek & Edk).
  eexists. split; [apply shat_bytes_length|]. split; [|exact Edk].
  rewrite Eek. apply ek_length. apply hash_g_len, Hg.
Qed.

Lemma keygen_total d z :
  (forall i j, (i < k p)%nat -> (j < k p)%nat ->
     (256 <= length (accepted_candidates 3329 (xof128 hs (firstn 32 (sha3_512 hs (d ++ [Z.of_nat (k p)])) ++ [Z.of_nat j; Z.of_nat i]))))%nat) ->
  exists ek dk, keygen_internal hs p d z = Ok (ek, dk).
Proof using Hp Hs.
  intro H. destruct Hs as (Hh & Hg & Hx). unfold keygen_internal, k_pke_keygen.
  destruct (hash_g hs (d ++ [Z.of_nat (k p)])) as [rho sigma] eqn:G.
  assert (Erho : rho = firstn 32 (sha3_512 hs (d ++ [Z.of_nat (k p)]))) by (unfold hash_g in G; injection G as <- _; reflexivity).
  rewrite <- Erho in H.
  assert (exists a, gen_matrix hs p rho = Ok a) as [a Ea].
  { unfold gen_matrix.
    rewrite (mapM_ok_map _ (fun i => map (fun j => firstn 256 (accepted_candidates q (xof128 hs (rho ++ [Z.of_nat j; Z.of_nat i])))) (seq 0 (k p)))).
    - eexists. reflexivity.
    - intros i Hi. apply mapM_ok_map. intros j Hj. apply in_seq in Hi, Hj. unfold sample_ntt. rewrite sample_ntt_loop_spec.
      rewrite q_val. destruct (Nat.leb_spec 256 (length (accepted_candidates 3329 (xof128 hs (rho ++ [Z.of_nat j; Z.of_nat i]))))); [reflexivity|].
      specialize (H i j). lia. }
  rewrite Ea. cbn [bind]. destruct (keygen_vectors hs p Hx rho sigma a Ea) as [E1 E2].
  rewrite E1. cbn [bind]. rewrite E2. cbn [bind]. eexists. eexists. reflexivity.
Qed.

Lemma get_public_key_gen d z ek dk : keygen_internal hs p d z = Ok (ek, dk) -> get_public_key p dk = ek.
Proof using Hp Hs.
  intro E. destruct Hs as (Hh & _). destruct (gen_lengths d z ek dk E) as (dkp & L1 & L2 & ->).
  unfold get_public_key. apply (dk_slices p dkp ek (sha3_256 hs ek) z L1 L2 (Hh ek)).
Qed.

Lemma gen_sizes d z ek dk : keygen_internal hs p d z = Ok (ek, dk) -> length z = 32%nat ->
  length ek = (384 * k p + 32)%nat /\ length dk = (768 * k p + 96)%nat.
Proof using Hp Hs.
  intros E Lz. destruct Hs as (Hh & _). destruct (gen_lengths d z ek dk E) as (dkp & L1 & L2 & ->).
  split; [exact L2|]. rewrite !app_length, L1, L2, Hh, Lz. lia.
Qed.

Lemma decaps_encaps_gen d z m ek dk : keygen_internal hs p d z = Ok (ek, dk) ->
  length m = 32%nat -> is_bytes m = true ->
  exists K r c,
    hash_g hs (m ++ sha3_256 hs ek) = (K, r) /\
    encaps_internal hs p ek m = Ok (K, c) /\
    length c = (32 * (du p * k p + dv p))%nat /\
    (no_failure hs p (fst (hash_g hs (d ++ [Z.of_nat (k p)]))) (snd (hash_g hs (d ++ [Z.of_nat (k p)]))) r m ->
     decaps_internal hs p dk c = Ok K).
Proof using Hp Hs.
  destruct Hs as (Hh & Hg & Hx). apply decaps_encaps; auto. apply param_sets_good, Hp.
Qed.

Lemma decaps_gen d z ek dk c : keygen_internal hs p d z = Ok (ek, dk) -> length z = 32%nat ->
  (32 * (du p * k p + dv p) <= length c)%nat ->
  exists m K c', length m = 32%nat /\ is_bytes m = true /\
    k_pke_decrypt p (firstn (384 * k p) dk) c = Ok m /\
    encaps_internal hs p ek m = Ok (K, c') /\ length c' = (32 * (du p * k p + dv p))%nat /\
    (c = c' -> decaps_internal hs p dk c = Ok K) /\
    (c <> c' -> decaps_internal hs p dk c = Ok (shake256 hs (z ++ c) 32)).
Proof using Hp Hs.
  intros E Lz Lc. destruct Hs as (Hh & Hg & Hx).
  destruct (gen_lengths d z ek dk E) as (dkp & L1 & L2 & Edk).
  destruct (dk_slices p dkp ek (sha3_256 hs ek) z L1 L2 (Hh ek)) as (S1 & S2 & S3 & S4). cbv zeta in *.
  destruct (decrypt_total p (param_sets_good p Hp) dkp c L1 Lc) as (m & Em & Lm & Bm).
  destruct (decaps_encaps_gen d z m ek dk E Lm Bm) as (K & r & c' & G & EN & Lc' & _).
  exists m, K, c'. split; [exact Lm|]. split; [exact Bm|].
  split. { subst dk. rewrite firstn_app, firstn_all2 by lia. replace (384 * k p - length dkp)%nat with 0%nat by lia.
           rewrite firstn_O, app_nil_r. exact Em. }
  split; [exact EN|]. split; [exact Lc'|].
  assert (D : decaps_internal hs p dk c = Ok (if bytes_eqb c c' then K else shake256 hs (z ++ c) 32)).
  { unfold decaps_internal, hash_j. cbv zeta. rewrite Edk, S1, S2, S3, S4, Em. cbn [bind]. rewrite G.
    unfold encaps_internal, hash_h in EN. rewrite G in EN.
    destruct (k_pke_encrypt hs p ek m r) as [c''|]; [|discriminate]. cbn [bind] in *. injection EN as ->.
    rewrite slice_all by exact Lz. reflexivity. }
  split; intro H; rewrite D.
  - subst c'. rewrite bytes_eqb_refl. reflexivity.
  - destruct (bytes_eqb c c') eqn:Q; [apply bytes_eqb_eq in Q; contradiction|reflexivity].
Qed.

Lemma decaps_reject d z ek dk c : keygen_internal hs p d z = Ok (ek, dk) -> length z = 32%nat ->
  (32 * (du p * k p + dv p) <= length c)%nat ->
  (forall m K, length m = 32%nat -> encaps_internal hs p ek m <> Ok (K, c)) ->
  decaps_internal hs p dk c = Ok (shake256 hs (z ++ c) 32).
Proof using Hp Hs.
  intros E Lz Lc N. destruct (decaps_gen d z ek dk c E Lz Lc) as (m & K & c' & Lm & _ & _ & EN & _ & _ & R).
  apply R. intros ->. apply (N m K Lm EN).
Qed.

Lemma decaps_long d z ek dk c : keygen_internal hs p d z = Ok (ek, dk) -> length z = 32%nat ->
  (32 * (du p * k p + dv p) < length c)%nat ->
  decaps_internal hs p dk c = Ok (shake256 hs (z ++ c) 32).
Proof using Hp Hs.
  intros E Lz Lc. destruct (decaps_gen d z ek dk c E Lz) as (m & K & c' & _ & _ & _ & _ & L & _ & R); [lia|].
  apply R. intros ->. lia.
Qed.
End Gen.

Lemma bits_bytes_inverse n l : length l = (8 * n)%nat -> Forall (fun b => b = 0 \/ b = 1) l ->
  exists b, bits_to_bytes l = Ok b /\ bytes_to_bits b = l /\ length b = n /\ is_bytes b = true.
Proof. exact (bits_to_bytes_ok n l). Qed.
