(** Properties C21-C27: the ML-KEM implementation in pq_logic/fips/fips203.py.
    The hash functions [hs] are arbitrary throughout; [hash_lengths hs] says
    that they return the number of bytes their names promise. *)
From Verif Require Import LatFacts MlKemNtt MlKemCodec MlKemProofs MlKemKem MlKemMore MlKemWitness.
Local Open Scope Z_scope.

(** ** C21: byte encoding *)
Theorem C21_decode_encode : forall (d : nat) (f : list Z), (d <= 12)%nat -> length f = 256%nat ->
  Forall (fun x => 0 <= x < if (d <? 12)%nat then 2 ^ Z.of_nat d else 3329) f ->
  exists b, byte_encode d f = Ok b /\ length b = (32 * d)%nat /\ is_bytes b = true /\ byte_decode d b = Ok f.
Proof.
  intros d f Hd L F. apply encode_decode_coeffs; [exact Hd|exact L|]. unfold enc_mod. rewrite q_val, Z.shiftl_1_l. exact F.
Qed.
Example C21_decode_encode_ex :
  let f := map (fun i => Z.of_nat (i * 13)) (seq 0 256) in
  Forall (fun x => 0 <= x < 3329) f /\ bind (byte_encode 12 f) (byte_decode 12) = Ok f.
Proof.
  cbv zeta. split; [|vm_compute; reflexivity].
  apply Forall_map, Forall_forall. intros i Hi. apply in_seq in Hi. lia.
Qed.

Theorem C21_encode_decode : forall (d : nat) (b : bytes), (d < 12)%nat -> length b = (32 * d)%nat -> is_bytes b = true ->
  exists f, byte_decode d b = Ok f /\ byte_encode d f = Ok b.
Proof. exact decode_encode_bytes. Qed.
Example C21_encode_decode_ex :
  let b := map (fun i => Z.of_nat (i * 7 mod 256)) (seq 3 352) in
  length b = (32 * 11)%nat /\ bind (byte_decode 11 b) (byte_encode 11) = Ok b.
Proof. split; vm_compute; reflexivity. Qed.

(** For d = 12 the second round trip fails, as in FIPS 203: values of [q] and
    above are reduced. *)
Theorem C21_encode_decode_12_refuted :
  exists b, length b = 384%nat /\ is_bytes b = true /\ bind (byte_decode 12 b) (byte_encode 12) <> Ok b.
Proof. exists (repeat 255 384). repeat split. vm_compute. discriminate. Qed.

Theorem C21_decode_short : forall d b, (length b < 32 * d)%nat -> byte_decode d b = Err EIndexError.
Proof. exact byte_decode_short. Qed.
Example C21_decode_short_ex : byte_decode 4 (repeat 7 127) = Err EIndexError.
Proof. reflexivity. Qed.

Theorem C21_bits_bytes : forall n (l : list Z), length l = (8 * n)%nat -> Forall (fun b => b = 0 \/ b = 1) l ->
  exists b, bits_to_bytes l = Ok b /\ bytes_to_bits b = l /\ length b = n /\ is_bytes b = true.
Proof. exact bits_bytes_inverse. Qed.
Theorem C21_bytes_bits : forall b, is_bytes b = true -> bits_to_bytes (bytes_to_bits b) = Ok b.
Proof. exact bits_to_bytes_inv. Qed.
Example C21_bits_bytes_ex : bits_to_bytes [1;0;1;0;0;0;0;1; 0;1;0;0;0;0;0;0] = Ok [133; 2] /\
  bytes_to_bits [133; 2] = [1;0;1;0;0;0;0;1; 0;1;0;0;0;0;0;0].
Proof. split; reflexivity. Qed.

(** ** C22: compression *)
Theorem C22_compress_error : forall (d : nat) (x : Z), (1 <= d < 12)%nat -> 0 <= x < 3329 ->
  near 3329 ((3329 + 2 ^ Z.of_nat d) / 2 ^ (Z.of_nat d + 1)) (decompress1 d (compress1 d x)) x.
Proof. intros d x Hd Hx. rewrite <- q_val in *. apply compress_near; assumption. Qed.
Theorem C22_compress_decompress : forall (d : nat) (y : Z), (1 <= d < 12)%nat -> 0 <= y < 2 ^ Z.of_nat d ->
  compress1 d (decompress1 d y) = y.
Proof. exact compress_decompress. Qed.
(** Compression is rounding of 2^d x / q to a nearest integer, modulo 2^d. *)
Theorem C22_compress_rounds : forall (d : nat) (x : Z),
  0 <= compress1 d x < 2 ^ Z.of_nat d /\
  exists t, - 3329 <= 2 * (3329 * (compress1 d x + t * 2 ^ Z.of_nat d) - 2 ^ Z.of_nat d * x) <= 3329.
Proof. intros d x. split; [apply compress1_bound|]. rewrite <- q_val. apply compress_rounds. Qed.
Example C22_ex : map (compress1 4) [0; 104; 105; 1664; 3224; 3225; 3328] = [0; 0; 1; 8; 15; 0; 0] /\
  decompress1 4 (compress1 4 1700) = 1665 /\ (3329 + 2 ^ 4) / 2 ^ 5 = 104.
Proof. repeat split; vm_compute; reflexivity. Qed.

(** ** C23: the transform is invertible *)
Theorem C23_intt_ntt : forall f, poly 3329 256 f -> ntt_inverse (ntt f) = f.
Proof. rewrite <- q_val. exact intt_ntt_eq. Qed.
Theorem C23_ntt_intt : forall f, poly 3329 256 f -> ntt (ntt_inverse f) = f.
Proof. rewrite <- q_val. exact ntt_intt_eq. Qed.
Example C23_ex : let f := map (fun i => Z.of_nat (i * 13)) (seq 0 256) in
  poly 3329 256 f /\ ntt f <> f /\ ntt_inverse (ntt f) = f.
Proof.
  cbv zeta. split; [|split].
  - split; [reflexivity|]. apply Forall_map, Forall_forall. intros i Hi. apply in_seq in Hi. lia.
  - intro H. assert (E : bytes_eqb (ntt (map (fun i => Z.of_nat (i * 13)) (seq 0 256))) (map (fun i => Z.of_nat (i * 13)) (seq 0 256)) = false)
      by (vm_compute; reflexivity).
    rewrite H, bytes_eqb_refl in E. discriminate.
  - vm_compute. reflexivity.
Qed.

(** ** C24: multiplication through the transform *)
Theorem C24_ntt_multiplication : forall f g, length f = 256%nat -> length g = 256%nat ->
  ntt_inverse (multiply_ntts (ntt f) (ntt g)) = ring_mul 3329 256 f g.
Proof. rewrite <- q_val. exact intt_mul. Qed.
(** (2 + X^255)(3 + 5X) = 6 - 5 + 10X + 3X^255. *)
Example C24_ex :
  let f := 2 :: repeat 0 254 ++ [1] in let g := 3 :: 5 :: repeat 0 254 in
  ring_mul 3329 256 f g = 1 :: 10 :: repeat 0 253 ++ [3] /\
  ntt_inverse (multiply_ntts (ntt f) (ntt g)) = 1 :: 10 :: repeat 0 253 ++ [3].
Proof. cbv zeta. split; vm_compute; reflexivity. Qed.

(** ** C25: sampling *)
Theorem C25_cbd_range : forall eta b,
  length (sample_poly_cbd eta b) = 256%nat /\
  Forall (fun x => 0 <= x < 3329 /\ near 3329 (Z.of_nat eta) x 0) (sample_poly_cbd eta b).
Proof.
  intros eta b. split; [apply sample_poly_cbd_length|]. apply Forall_forall. intros x Hx. rewrite <- q_val. split.
  - exact (proj1 (Forall_forall _ _) (sample_poly_cbd_reduced eta b) x Hx).
  - apply (sample_poly_cbd_near eta b x Hx).
Qed.
(** Rejection sampling returns the first 256 candidates below q, in order, and
    raises RuntimeError when the stream runs out. *)
Theorem C25_sample_ntt : forall s,
  sample_ntt s = if (256 <=? length (accepted_candidates 3329 s))%nat
                 then Ok (firstn 256 (accepted_candidates 3329 s)) else Err ERuntimeError.
Proof. rewrite <- q_val. intro s. apply sample_ntt_loop_spec. Qed.
Theorem C25_sample_ntt_range : forall s f, is_bytes s = true -> sample_ntt s = Ok f -> poly 3329 256 f.
Proof. intros s f B E. rewrite <- q_val. apply (sample_ntt_loop_ok s 256 f B E). Qed.
Example C25_ex :
  firstn 4 (sample_poly_cbd 3 (repeat 0x9a 192)) = [3328; 3328; 3328; 1] /\
  is_ok (sample_ntt (toy_hash 1200 [1; 2])) = true /\ sample_ntt (repeat 255 1200) = Err ERuntimeError.
Proof. repeat split; vm_compute; reflexivity. Qed.

(** ** C26: decapsulation inverts encapsulation *)
(** [no_failure] (MlKemSpec) is the FIPS 203 correctness condition on the noise of
    this key and this encapsulation: every coefficient below q/4. *)
Theorem C26_decaps_encaps : forall hs p d z m ek dk, In p param_sets -> hash_lengths hs ->
  keygen_internal hs p d z = Ok (ek, dk) -> length m = 32%nat -> is_bytes m = true ->
  exists K r c,
    hash_g hs (m ++ sha3_256 hs ek) = (K, r) /\
    encaps_internal hs p ek m = Ok (K, c) /\
    length c = (32 * (du p * k p + dv p))%nat /\
    (no_failure hs p (fst (hash_g hs (d ++ [Z.of_nat (k p)]))) (snd (hash_g hs (d ++ [Z.of_nat (k p)]))) r m ->
     decaps_internal hs p dk c = Ok K).
Proof. intros hs p d z m ek dk Hp Hs. apply decaps_encaps_gen; assumption. Qed.
Example C26_decaps_encaps_ex :
  hash_lengths toy /\
  no_failure toy ml_kem_512 ex_rho ex_sigma ex_r ex_m /\
  exists ek dk c, keygen_internal toy ml_kem_512 ex_d ex_z = Ok (ek, dk) /\
    encaps_internal toy ml_kem_512 ek ex_m = Ok (ex_key, c) /\
    decaps_internal toy ml_kem_512 dk c = Ok ex_key.
Proof.
  split; [exact toy_lengths|]. split; [exact ex_no_failure|]. destruct ex_keygen as (ek & dk & E).
  destruct (C26_decaps_encaps toy ml_kem_512 ex_d ex_z ex_m ek dk (or_introl eq_refl) toy_lengths E eq_refl eq_refl)
    as (K & r & c & G & EN & _ & D).
  assert (GK : K = ex_key) by (change K with (fst (K, r)); rewrite <- G, toy_g by reflexivity; reflexivity).
  assert (GR : r = ex_r) by (change r with (snd (K, r)); rewrite <- G, toy_g by reflexivity; reflexivity).
  rewrite toy_g in D by reflexivity. cbn [fst snd] in D. subst K r.
  exists ek, dk, c. split; [exact E|]. split; [exact EN|]. apply D. exact ex_no_failure.
Qed.

(** Key generation succeeds as long as no XOF stream runs out. *)
Theorem C26_keygen_total : forall hs p d z, In p param_sets -> hash_lengths hs ->
  (forall i j, (i < k p)%nat -> (j < k p)%nat ->
     (256 <= length (accepted_candidates 3329
        (xof128 hs (firstn 32 (sha3_512 hs (d ++ [Z.of_nat (k p)])) ++ [Z.of_nat j; Z.of_nat i]))))%nat) ->
  exists ek dk, keygen_internal hs p d z = Ok (ek, dk).
Proof. intros hs p d z Hp Hs. apply keygen_total; assumption. Qed.
Example C26_keygen_total_ex : forallb (fun i => forallb (fun j =>
   (256 <=? length (accepted_candidates 3329 (xof128 toy (ex_rho ++ [Z.of_nat j; Z.of_nat i]))))%nat) (seq 0 2)) (seq 0 2) = true.
Proof. exact ex_streams. Qed.

(** The private key carries its public key, and both have the standard sizes. *)
Theorem C26_key_sizes : forall hs p d z ek dk, In p param_sets -> hash_lengths hs ->
  keygen_internal hs p d z = Ok (ek, dk) -> length z = 32%nat ->
  length ek = (384 * k p + 32)%nat /\ length dk = (768 * k p + 96)%nat /\ get_public_key p dk = ek.
Proof.
  intros hs p d z ek dk Hp Hs E Lz. destruct (gen_sizes hs p Hp Hs d z ek dk E Lz) as [L1 L2].
  split; [exact L1|]. split; [exact L2|]. apply (get_public_key_gen hs p Hp Hs d z ek dk E).
Qed.
Example C26_key_sizes_ex : exists ek dk, keygen_internal toy ml_kem_512 ex_d ex_z = Ok (ek, dk) /\
  length ek = 800%nat /\ length dk = 1632%nat /\ get_public_key ml_kem_512 dk = ek.
Proof.
  destruct ex_keygen as (ek & dk & E). exists ek, dk. split; [exact E|].
  exact (C26_key_sizes toy ml_kem_512 ex_d ex_z ek dk (or_introl eq_refl) toy_lengths E eq_refl).
Qed.

(** ** C27: implicit rejection *)
Theorem C27_decaps_outcome : forall hs p d z ek dk c, In p param_sets -> hash_lengths hs ->
  keygen_internal hs p d z = Ok (ek, dk) -> length z = 32%nat ->
  (32 * (du p * k p + dv p) <= length c)%nat ->
  exists m K c', length m = 32%nat /\ is_bytes m = true /\
    k_pke_decrypt p (firstn (384 * k p) dk) c = Ok m /\
    encaps_internal hs p ek m = Ok (K, c') /\ length c' = (32 * (du p * k p + dv p))%nat /\
    (c = c' -> decaps_internal hs p dk c = Ok K) /\
    (c <> c' -> decaps_internal hs p dk c = Ok (shake256 hs (z ++ c) 32)).
Proof. intros hs p d z ek dk c Hp Hs. apply decaps_gen; assumption. Qed.
Theorem C27_decaps_rejects : forall hs p d z ek dk c, In p param_sets -> hash_lengths hs ->
  keygen_internal hs p d z = Ok (ek, dk) -> length z = 32%nat ->
  (32 * (du p * k p + dv p) <= length c)%nat ->
  (forall m K, length m = 32%nat -> encaps_internal hs p ek m <> Ok (K, c)) ->
  decaps_internal hs p dk c = Ok (shake256 hs (z ++ c) 32).
Proof. intros hs p d z ek dk c Hp Hs. apply decaps_reject; assumption. Qed.
Theorem C27_decaps_long_rejects : forall hs p d z ek dk c, In p param_sets -> hash_lengths hs ->
  keygen_internal hs p d z = Ok (ek, dk) -> length z = 32%nat ->
  (32 * (du p * k p + dv p) < length c)%nat ->
  decaps_internal hs p dk c = Ok (shake256 hs (z ++ c) 32).
Proof. intros hs p d z ek dk c Hp Hs. apply decaps_long; assumption. Qed.
(** A ciphertext that is too short is not rejected implicitly: IndexError. *)
Theorem C27_decaps_short_raises : forall hs p dk c, In p param_sets ->
  (length c < 32 * (du p * k p + dv p))%nat -> decaps_internal hs p dk c = Err EIndexError.
Proof. intros hs p dk c Hp L. apply decaps_short; [exact L|]. destruct Hp as [<-|[<-|[<-|[]]]]; simpl; lia. Qed.
(** Every ciphertext of the right length, an over-long one, one that is too short. *)
Example C27_ex : exists ek dk, keygen_internal toy ml_kem_512 ex_d ex_z = Ok (ek, dk) /\
  (forall c, length c = 768%nat -> is_ok (decaps_internal toy ml_kem_512 dk c) = true) /\
  decaps_internal toy ml_kem_512 dk (repeat 5 769) = Ok (shake256 toy (ex_z ++ repeat 5 769) 32) /\
  decaps_internal toy ml_kem_512 dk (repeat 5 767) = Err EIndexError.
Proof.
  destruct ex_keygen as (ek & dk & E). exists ek, dk. split; [exact E|]. split; [|split].
  - intros c L. destruct (C27_decaps_outcome toy ml_kem_512 ex_d ex_z ek dk c (or_introl eq_refl) toy_lengths E eq_refl)
      as (m & K & c' & _ & _ & _ & _ & _ & H1 & H2); [rewrite L; apply Nat.leb_le; reflexivity|].
    destruct (list_eq_dec Z.eq_dec c c') as [Q|Q]; [rewrite (H1 Q)|rewrite (H2 Q)]; reflexivity.
  - apply (C27_decaps_long_rejects toy ml_kem_512 ex_d ex_z ek dk); [left; reflexivity|exact toy_lengths|exact E|reflexivity|].
    rewrite repeat_length. apply Nat.ltb_lt. reflexivity.
  - apply C27_decaps_short_raises; [left; reflexivity|]. rewrite repeat_length. apply Nat.ltb_lt. reflexivity.
Qed.

Print Assumptions C21_decode_encode.
Print Assumptions C21_encode_decode.
Print Assumptions C21_bits_bytes.
Print Assumptions C22_compress_error.
Print Assumptions C22_compress_decompress.
Print Assumptions C22_compress_rounds.
Print Assumptions C23_intt_ntt.
Print Assumptions C23_ntt_intt.
Print Assumptions C24_ntt_multiplication.
Print Assumptions C25_cbd_range.
Print Assumptions C25_sample_ntt.
Print Assumptions C25_sample_ntt_range.
Print Assumptions C26_decaps_encaps.
Print Assumptions C26_keygen_total.
Print Assumptions C26_key_sizes.
Print Assumptions C27_decaps_outcome.
Print Assumptions C27_decaps_rejects.
Print Assumptions C27_decaps_long_rejects.
Print Assumptions C27_decaps_short_raises.
