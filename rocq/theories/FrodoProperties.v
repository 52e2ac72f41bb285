(** FrodoKEM: packing, encoding and sampling (C38); agreement, implicit
    rejection and the contents of keys and ciphertexts (C39). *)

From Coq Require Import Arith ZArith List Bool Lia.
From Verif Require Import Prelude PreludeFacts FrodoModel FrodoSpec FrodoProofs FrodoKem FrodoTop FrodoMain.
Import ListNotations.
Open Scope Z_scope.

(** ** C38: packing *)

(** Unpacking what was packed reduces every entry modulo [2^D]; entries below
    [2^D] come back unchanged. *)
Theorem C38_unpack_pack v n1 n2 C :
  (0 < n1)%nat -> ((n1 * n2 * dbits v) mod 8 = 0)%nat -> is_mat n1 n2 C ->
  exists b, pack (params_of v) C = Ok b /\ length b = (n1 * n2 * dbits v / 8)%nat /\ is_bytes b = true /\
    unpack (params_of v) b n1 n2 = Ok (map (map (fun x => x mod 2 ^ Z.of_nat (dbits v))) C) /\
    (entries (fun x => 0 <= x < 2 ^ Z.of_nat (dbits v)) C -> unpack (params_of v) b n1 n2 = Ok C).
Proof.
  intros Hn H8 HM. rewrite <- e_D in *.
  destruct (pack_unpack (params_of v) n1 n2 C Hn H8 HM) as (b & H1 & H2 & H3 & H4).
  exists b. repeat split; try assumption. intros HE.
  destruct (pack_unpack_exact (params_of v) n1 n2 C Hn H8 HM HE) as (b' & H1' & _ & _ & H4').
  assert (b' = b) by congruence. subst b'. exact H4'.
Qed.
Print Assumptions C38_unpack_pack.

(** Every byte string of the right length is the packing of exactly the matrix
    it unpacks to. *)
Theorem C38_pack_unpack v n1 n2 b :
  (0 < n1)%nat -> (dbits v * n1 * n2 = 8 * length b)%nat -> is_bytes b = true ->
  exists C, unpack (params_of v) b n1 n2 = Ok C /\ is_mat n1 n2 C /\
    entries (fun x => 0 <= x < 2 ^ Z.of_nat (dbits v)) C /\ pack (params_of v) C = Ok b.
Proof. intros Hn HL Hb. rewrite <- e_D in *. exact (unpack_pack (params_of v) n1 n2 b Hn HL Hb). Qed.
Print Assumptions C38_pack_unpack.

(** The position of every entry: [D] bits each, most significant first, row by row. *)
Theorem C38_pack_positions v n1 n2 C b i j :
  (0 < n1)%nat -> ((n1 * n2 * dbits v) mod 8 = 0)%nat -> is_mat n1 n2 C ->
  pack (params_of v) C = Ok b -> (i < n1)%nat -> (j < n2)%nat ->
  number_at (dbits v) b (i * n2 + j) = nth j (nth i C []) 0 mod 2 ^ Z.of_nat (dbits v).
Proof.
  intros Hn H8 HM HP Hi Hj. rewrite <- e_D in *.
  replace (n1 * n2 * p_D (params_of v))%nat with (n1 * (n2 * p_D (params_of v)))%nat in H8 by ring.
  rewrite (pack_ok _ n1 n2 C HM Hn H8) in HP. assert (Eb : b = packed (params_of v) C) by congruence. subst b.
  rewrite <- unpacked_number.
  exact (build_inj _ _ _ _ (unpacked_packed (params_of v) n1 n2 C HM H8) i j Hi Hj).
Qed.
Print Assumptions C38_pack_positions.

Example C38_pack_case :
  let C := [[1; 2; 32767; 0; 5; 16384; 7; 8]] in
  is_mat 1 8 C /\ entries (fun x => 0 <= x < 2 ^ Z.of_nat (dbits S640)) C /\
  pack (params_of S640) C = Ok [0; 2; 0; 11; 255; 248; 0; 0; 0; 176; 0; 0; 3; 128; 8] /\
  ((1 * 8 * dbits S640) mod 8 = 0)%nat.
Proof.
  split; [split; [reflexivity|intros r [<-|[]]; reflexivity]|]. split.
  - intros r x [<-|[]] Hx. change (2 ^ Z.of_nat (dbits S640)) with 32768.
    repeat (destruct Hx as [<-|Hx]; [lia|]). destruct Hx.
  - split; vm_compute; reflexivity.
Qed.

(** ** C38: encoding *)

(** A message encoded, disturbed by [E] and decoded comes back exactly when
    every entry of [E] is, up to a multiple of [q], in
    [-q/2^(B+1) <= e < q/2^(B+1)]. *)
Theorem C38_decode_encode_exact v k E :
  length k = seclen v -> is_bytes k = true -> is_mat 8 8 E ->
  exists K KE, encode (params_of v) k = Ok K /\ matrix_add (params_of v) K E = Ok KE /\
    (decode (params_of v) KE = Ok k <->
     entries (fun e => exists c, below_threshold v (e - c * modulus v)) E).
Proof.
  intros Hk Bk HE. pose proof (params_good v) as HG.
  pose proof (decode_encode_iff (params_of v) k E) as H.
  rewrite (g_mbar _ HG), (g_nbar _ HG), e_q, e_B in H. apply H; try assumption; try lia.
  - apply (g_pow _ HG).
  - unfold whole_message. rewrite (g_mbar _ HG), (g_nbar _ HG), Hk, <- e_mu, (g_mu _ HG). lia.
Qed.
Print Assumptions C38_decode_encode_exact.

Theorem C38_decode_encode v k E :
  length k = seclen v -> is_bytes k = true -> is_mat 8 8 E -> entries (below_threshold v) E ->
  exists K KE, encode (params_of v) k = Ok K /\ matrix_add (params_of v) K E = Ok KE /\
    decode (params_of v) KE = Ok k.
Proof.
  intros Hk Bk HE H. destruct (C38_decode_encode_exact v k E Hk Bk HE) as (K & KE & H1 & H2 & H3).
  exists K, KE. repeat split; try assumption. apply H3. intros r x Hr Hx. exists 0.
  rewrite Z.mul_0_l, Z.sub_0_r. exact (H r x Hr Hx).
Qed.
Print Assumptions C38_decode_encode.

(** The encoding itself: entry [i, j] is the [B]-bit group number [8i+j] times [q/2^B]. *)
Theorem C38_encode_entries v k K i j :
  length k = seclen v -> encode (params_of v) k = Ok K -> (i < 8)%nat -> (j < 8)%nat ->
  nth j (nth i K []) 0 = group_at (mbits v) k (i * 8 + j) * 2 ^ Z.of_nat (dbits v - mbits v).
Proof.
  intros Hk HK Hi Hj. pose proof (params_good v) as HG.
  rewrite (encode_8 (params_of v) HG) in HK by (rewrite e_mu; exact Hk).
  assert (EK : K = Menc (params_of v) k) by congruence. subst K.
  transitivity (group (params_of v) k (i * 8 + j) * step (params_of v)); [exact (at_build 8 8 _ i j Hi Hj)|].
  unfold step, group. rewrite e_B, e_D. reflexivity.
Qed.
Print Assumptions C38_encode_entries.

(** Noise of [4095] in every entry is below the threshold of the 640
    parameters and [4096] is not. *)
Example C38_threshold_case :
  below_threshold S640 4095 /\ below_threshold S640 (-4096) /\ ~ below_threshold S640 4096 /\
  is_mat 8 8 (repeat (repeat 4095 8) 8) /\ entries (below_threshold S640) (repeat (repeat 4095 8) 8).
Proof.
  unfold below_threshold. change (modulus S640) with 32768. change (2 ^ (Z.of_nat (mbits S640) + 1)) with 8.
  split; [lia|]. split; [lia|]. split; [lia|]. split.
  - split; [reflexivity|]. intros r Hr. apply repeat_spec in Hr. subst r. reflexivity.
  - intros r x Hr Hx. apply repeat_spec in Hr. subst r. apply repeat_spec in Hx. subst x.
    change (modulus S640) with 32768. change (2 ^ (Z.of_nat (mbits S640) + 1)) with 8. lia.
Qed.

(** ** C38: sampling *)

(** The sampler maps each 16-bit integer to the value the published table
    gives it, and to nothing else. *)
Theorem C38_sample_distribution v r e : 0 <= r < 65536 ->
  (sample (params_of v) r = e <-> drawn (chi_of v) r e).
Proof.
  intros Hr. rewrite <- e_chi. apply sample_iff.
  - destruct v; simpl; lia.
  - destruct v; simpl; intros x Hx; repeat (destruct Hx as [<-|Hx]; [lia|]); destruct Hx.
  - assert (E : weight_upto (p_chi (params_of v)) (length (p_chi (params_of v)) - 1) = 32768)
      by (destruct v; reflexivity).
    rewrite E. apply Z.div_lt_upper_bound; lia.
Qed.
Print Assumptions C38_sample_distribution.

(** For every magnitude, the number of 15-bit values of that class is its table
    weight (half of it for zero, which both signs share): the classes are
    consecutive intervals of that length that fill [0, 2^15). *)
Theorem C38_sample_weights v :
  weight_upto (chi_of v) 0 = nth 0 (chi_of v) 0 / 2 /\
  (forall m, (0 < m)%nat -> weight_upto (chi_of v) m - weight_upto (chi_of v) (m - 1) = nth m (chi_of v) 0) /\
  weight_upto (chi_of v) (length (chi_of v) - 1) = 2 ^ 15 /\
  (forall r, - Z.of_nat (length (chi_of v) - 1) <= sample (params_of v) r <= Z.of_nat (length (chi_of v) - 1)).
Proof.
  split; [unfold weight_upto; simpl sigma; lia|]. split.
  - intros [|m] Hm; [lia|]. replace (S m - 1)%nat with m by lia. unfold weight_upto. simpl sigma. lia.
  - split; [destruct v; reflexivity|]. intros r. rewrite sample_noise, e_chi. apply noise_bound.
Qed.
Print Assumptions C38_sample_weights.

Example C38_sample_case :
  sample (params_of S640) 9286 = 0 /\ sample (params_of S640) 9288 = 1 /\
  sample (params_of S640) 9289 = -1 /\ sample (params_of S640) 65535 = -12.
Proof. vm_compute. repeat split. Qed.

(** ** C39 *)

(** A key pair made from any seed and an encapsulation with any randomness
    agree, as long as the noise of the exchange is below the threshold. *)
Theorem C39_agreement L v aes seed mu salt :
  good_lib L -> length seed = seedlen v -> is_bytes seed = true ->
  length mu = seclen v -> is_bytes mu = true -> length salt = saltlen v ->
  exists pk sk ct ss,
    kem_keygen L (params_of v) aes seed = Ok (pk, sk) /\ length pk = pklen v /\ length sk = sklen v /\
    kem_encaps L (params_of v) aes pk (mu ++ salt) = Ok (ct, ss) /\ length ct = ctlen v /\ length ss = seclen v /\
    (no_failure L v seed pk mu salt -> kem_decaps L (params_of v) aes sk ct = Ok ss).
Proof. exact (agreement L v aes seed mu salt). Qed.
Print Assumptions C39_agreement.

(** Under any secret key that carries the hash of its public key, a ciphertext
    that is the encapsulation of what it decrypts to gives the secret of that
    encapsulation; every other one gives [SHAKE(ct || s)]. *)
Theorem C39_implicit_rejection L v aes s pk Sb ct :
  good_lib L -> length s = seclen v -> is_bytes s = true -> length pk = pklen v ->
  length Sb = (2 * (8 * dim v))%nat -> length ct = ctlen v -> is_bytes ct = true ->
  let salt := skipn (dbits v * dim v + dbits v * 8) ct in
  exists mu ct' ss',
    decrypts_to v (stored_S v Sb) ct mu /\
    kem_encaps L (params_of v) aes pk (mu ++ salt) = Ok (ct', ss') /\
    kem_decaps L (params_of v) aes (s ++ pk ++ Sb ++ xof L v pk (seclen v)) ct =
      Ok (if bytes_eqb ct ct' then ss' else xof L v (ct ++ s) (seclen v)).
Proof. exact (rejection L v aes s pk Sb ct). Qed.
Print Assumptions C39_implicit_rejection.

(** The contents of the two keys: the public key packs [A S + E], the secret
    key is [s || pk || S^T || SHAKE(pk)]. *)
Theorem C39_key_contents L v aes seed pk sk :
  good_lib L -> length seed = seedlen v -> is_bytes seed = true ->
  kem_keygen L (params_of v) aes seed = Ok (pk, sk) ->
  let seedA := xof L v (skipn (seclen v + saltlen v) seed) 16 in
  exists b Sb,
    pk = seedA ++ b /\ length b = (dbits v * dim v)%nat /\ is_bytes b = true /\
    sk = firstn (seclen v) seed ++ pk ++ Sb ++ xof L v pk (seclen v) /\
    length Sb = (2 * (8 * dim v))%nat /\ is_bytes Sb = true /\
    forall i j, (i < dim v)%nat -> (j < 8)%nat ->
      stored_S v Sb i j = key_S L v seed i j /\
      number_at (dbits v) b (i * 8 + j) =
        (sigma (dim v) (fun k => pub_A L v aes seedA i k * key_S L v seed k j) + key_E L v seed i j) mod modulus v.
Proof. exact (public_key L v aes seed pk sk). Qed.
Print Assumptions C39_key_contents.

(** The contents of a ciphertext: [S'A + E'], [S'B + E'' + Encode(mu)], salt. *)
Theorem C39_ciphertext_contents L v aes pk mu salt ct ss :
  good_lib L -> length pk = pklen v -> is_bytes pk = true ->
  length mu = seclen v -> length salt = saltlen v ->
  kem_encaps L (params_of v) aes pk (mu ++ salt) = Ok (ct, ss) ->
  exists c1 c2,
    ct = c1 ++ c2 ++ salt /\ length c1 = (dbits v * dim v)%nat /\ length c2 = (dbits v * 8)%nat /\
    is_bytes c1 = true /\ is_bytes c2 = true /\
    ss = xof L v (ct ++ skipn (saltlen v) (seedSE_k L v pk mu salt)) (seclen v) /\
    (forall i j, (i < 8)%nat -> (j < dim v)%nat ->
       number_at (dbits v) c1 (i * dim v + j) =
       (sigma (dim v) (fun k => enc_S L v pk mu salt i k * pub_A L v aes (firstn 16 pk) k j)
        + enc_E L v pk mu salt i j) mod modulus v) /\
    (forall i j, (i < 8)%nat -> (j < 8)%nat ->
       number_at (dbits v) c2 (i * 8 + j) =
       (sigma (dim v) (fun k => enc_S L v pk mu salt i k * number_at (dbits v) (skipn 16 pk) (k * 8 + j))
        + enc_E2 L v pk mu salt i j
        + group_at (mbits v) mu (i * 8 + j) * 2 ^ Z.of_nat (dbits v - mbits v)) mod modulus v).
Proof. exact (ciphertext L v aes pk mu salt ct ss). Qed.
Print Assumptions C39_ciphertext_contents.

(** Inputs of the wrong length are refused. *)
Theorem C39_lengths L v aes :
  (forall pk ms, length pk <> pklen v -> kem_encaps L (params_of v) aes pk ms = Err EAssertion) /\
  (forall sk ct, length ct <> ctlen v \/ length sk <> sklen v ->
     kem_decaps L (params_of v) aes sk ct = Err EAssertion).
Proof. split; [exact (encaps_length L v aes)|exact (decaps_length L v aes)]. Qed.
Print Assumptions C39_lengths.

(** *** A library that meets the hypotheses *)

(** Every primitive answers with the byte 80: all samples are then 1. *)
Definition toy_lib : flib :=
  mk_flib (fun _ k => repeat 80 k) (fun _ k => repeat 80 k) (fun _ _ => repeat 80 16).

Lemma repeat_bytes c k : 0 <= c < 256 -> is_bytes (repeat c k) = true.
Proof. intros H. apply forallb_forall. intros x Hx. apply repeat_spec in Hx. subst x. unfold is_byte. lia. Qed.

Example C39_toy_good : good_lib toy_lib.
Proof.
  repeat split; try (apply repeat_length); apply repeat_bytes; lia.
Qed.

Lemma nth_repeat_lt (c : Z) k i : (i < k)%nat -> nth i (repeat c k) 0 = c.
Proof. intros H. rewrite nth_indep with (d' := c) by (rewrite repeat_length; exact H). apply nth_repeat. Qed.

Lemma word16_repeat k i : (2 * i + 1 < k)%nat -> word16 (repeat 80 k) i = 20560.
Proof. intros H. unfold word16. rewrite !nth_repeat_lt by lia. reflexivity. Qed.

Lemma noise_20560 v : noise_of (chi_of v) 20560 = 1.
Proof. destruct v; vm_compute; reflexivity. Qed.

Lemma xof_toy v m k : xof toy_lib v m k = repeat 80 k.
Proof. destruct v; reflexivity. Qed.

(** The noise of every exchange under it is 1 in every entry. *)
Example C39_toy_no_failure v seed pk mu salt : no_failure toy_lib v seed pk mu salt.
Proof.
  intros i j Hi Hj.
  assert (E : exchange_noise toy_lib v seed pk mu salt i j = 1).
  { unfold exchange_noise.
    rewrite (sigma_ext _ _ (fun _ => 1)).
    rewrite (sigma_ext _ (fun k => enc_E toy_lib v pk mu salt i k * key_S toy_lib v seed k j) (fun _ => 1)).
    - unfold enc_E2, enc_stream. rewrite xof_toy, word16_repeat, noise_20560 by lia. lia.
    - intros k Hk. unfold enc_E, key_S, enc_stream, key_stream. rewrite !xof_toy.
      rewrite !word16_repeat, !noise_20560 by nia. reflexivity.
    - intros k Hk. unfold enc_S, key_E, enc_stream, key_stream. rewrite !xof_toy.
      rewrite !word16_repeat, !noise_20560 by nia. reflexivity. }
  rewrite E. unfold below_threshold. destruct v; vm_compute; split; congruence.
Qed.

(** All hypotheses of the agreement hold at once, for all parameter sets. *)
Example C39_agreement_case v aes :
  exists pk sk ct ss,
    kem_keygen toy_lib (params_of v) aes (repeat 7 (seedlen v)) = Ok (pk, sk) /\
    kem_encaps toy_lib (params_of v) aes pk (repeat 9 (seclen v) ++ repeat 11 (saltlen v)) = Ok (ct, ss) /\
    kem_decaps toy_lib (params_of v) aes sk ct = Ok ss.
Proof.
  destruct (C39_agreement toy_lib v aes (repeat 7 (seedlen v)) (repeat 9 (seclen v)) (repeat 11 (saltlen v)))
    as (pk & sk & ct & ss & H1 & _ & _ & H2 & _ & _ & H3).
  - exact C39_toy_good.
  - apply repeat_length.
  - apply repeat_bytes; lia.
  - apply repeat_length.
  - apply repeat_bytes; lia.
  - apply repeat_length.
  - exists pk, sk, ct, ss. repeat split; try assumption. apply H3. apply C39_toy_no_failure.
Qed.

(** *** Key objects (without liboqs) *)

(** The 64, 88 or 112 bytes of a seed load as the key they generate; the
    private bytes of a generated key load as a key with the same public key. *)
Theorem C39_key_object L v aes seed :
  good_lib L -> length seed = seedlen v -> is_bytes seed = true ->
  exists pk sk,
    kem_keygen L (params_of v) aes seed = Ok (pk, sk) /\
    frodo_from_private_bytes L v aes seed = Ok (mk_frodo_key sk (Some pk) (Some seed)) /\
    frodo_from_seed L v aes seed = Ok (mk_frodo_key sk (Some pk) (Some seed)) /\
    exists key, frodo_from_private_bytes L v aes sk = Ok key /\ fk_private key = sk /\
      frodo_public_key v key = pk.
Proof. exact (key_object L v aes seed). Qed.
Print Assumptions C39_key_object.

(** A ciphertext of the wrong length is a ValueError, and otherwise the object
    decapsulates as the algorithm does. *)
Theorem C39_key_object_decaps L v aes key ct :
  (length ct <> ctlen v -> frodo_decaps L v aes key ct = Err EValueError) /\
  (length ct = ctlen v -> length (fk_private key) <> sklen v -> frodo_decaps L v aes key ct = Err EAssertion) /\
  (forall ss, length ct = ctlen v -> kem_decaps L (params_of v) aes (fk_private key) ct = Ok ss ->
     frodo_decaps L v aes key ct = Ok ss).
Proof. exact (decaps_object L v aes key ct). Qed.
Print Assumptions C39_key_object_decaps.

(** "Loading refuses private bytes of the wrong length" is false without
    liboqs: three bytes load as a key, and using it is an assertion failure. *)
Theorem C39_load_length_refuted L v aes :
  exists data key, length data <> sklen v /\ length data <> seedlen v /\
    frodo_from_private_bytes L v aes data = Ok key /\
    forall ct, length ct = ctlen v -> frodo_decaps L v aes key ct = Err EAssertion.
Proof.
  exists [1; 2; 3], (mk_frodo_key [1; 2; 3] None None).
  assert (Hsk : length [1; 2; 3] <> sklen v).
  { unfold sklen, seclen. simpl length. destruct v; lia. }
  assert (Hseed : length [1; 2; 3] <> seedlen v) by (unfold seedlen; simpl length; lia).
  split; [exact Hsk|]. split; [exact Hseed|]. split.
  - unfold frodo_from_private_bytes. rewrite seed_size_v.
    replace (Nat.eqb (seedlen v) (length [1; 2; 3])) with false; [reflexivity|].
    symmetry. apply Nat.eqb_neq. intros E. apply Hseed. symmetry. exact E.
  - intros ct Hct. exact (proj1 (proj2 (decaps_object L v aes (mk_frodo_key [1; 2; 3] None None) ct)) Hct Hsk).
Qed.
Print Assumptions C39_load_length_refuted.

(** The shared secret comes first in what a public key object returns. *)
Theorem C39_key_object_agreement L v aes seed mu salt :
  good_lib L -> length seed = seedlen v -> is_bytes seed = true ->
  length mu = seclen v -> is_bytes mu = true -> length salt = saltlen v ->
  exists key ct ss,
    frodo_from_seed L v aes seed = Ok key /\
    frodo_encaps L v aes (frodo_public_key v key) (mu ++ salt) = Ok (ss, ct) /\
    (no_failure L v seed (frodo_public_key v key) mu salt -> frodo_decaps L v aes key ct = Ok ss).
Proof.
  intros HL H1 H2 H3 H4 H5.
  destruct (agreement L v aes seed mu salt HL H1 H2 H3 H4 H5) as (pk & sk & ct & ss & K & _ & _ & E & LC & _ & Dc).
  destruct (key_object L v aes seed HL H1 H2) as (pk' & sk' & K' & _ & F & _).
  assert (Epk : pk' = pk) by congruence. assert (Esk : sk' = sk) by congruence. subst pk' sk'.
  exists (mk_frodo_key sk (Some pk) (Some seed)), ct, ss. split; [exact F|]. cbn [frodo_public_key fk_public].
  split; [unfold frodo_encaps; rewrite E; reflexivity|].
  intros HN. apply (proj2 (proj2 (decaps_object L v aes (mk_frodo_key sk (Some pk) (Some seed)) ct))); [exact LC|].
  exact (Dc HN).
Qed.
Print Assumptions C39_key_object_agreement.
