(** ML-KEM: key pair, encapsulation and decapsulation. *)
From Verif Require Export MlKemProofs.
From Coq Require Import Setoid Morphisms.
Local Open Scope Z_scope.
Local Opaque ntt ntt_inverse multiply_ntts sample_poly_cbd.

Definition good_params (p : params) : Prop := (1 <= du p < 12)%nat /\ (1 <= dv p < 12)%nat.

Lemma param_sets_good p : In p param_sets -> good_params p.
Proof. intros [<-|[<-|[<-|[]]]]; split; simpl; lia. Qed.

Section Kem.
Variable hs : hashes.
Variable p : params.
Hypothesis Hp : good_params p.
Hypothesis Hx : forall x, is_bytes (xof128 hs x) = true.

Lemma sample_ntt_poly x f : sample_ntt (xof128 hs x) = Ok f -> length f = 256%nat /\ reduced q f.
Proof. intro E. apply (sample_ntt_loop_ok (xof128 hs x) 256 f); [apply Hx|exact E]. Qed.

Lemma A_length rho i j : length (A hs rho i j) = 256%nat.
Proof.
  unfold A. destruct (sample_ntt _) eqn:E; [|apply repeat_length].
  apply ntt_inverse_length. apply (sample_ntt_poly _ _ E).
Qed.

Lemma gen_matrix_nth rho a : gen_matrix hs p rho = Ok a -> forall i j, (i < k p)%nat -> (j < k p)%nat ->
  nthp j (nth i a []) = ntt (A hs rho i j).
Proof.
  intros E i j Hi Hj. unfold gen_matrix in E. destruct (mapM_ok_inv _ _ _ E) as [_ N].
  specialize (N i 0%nat []). rewrite seq_length, seq_nth in N by assumption. specialize (N Hi). cbn [Nat.add] in N.
  destruct (mapM_ok_inv _ _ _ N) as [_ N2]. specialize (N2 j 0%nat []).
  rewrite seq_length, seq_nth in N2 by assumption. specialize (N2 Hj). cbn [Nat.add] in N2.
  unfold A, nthp. rewrite N2. symmetry. apply ntt_intt_eq. apply (sample_ntt_poly _ _ N2).
Qed.

Lemma sample_vec_nth eta s n0 i : (i < k p)%nat ->
  nthp i (map ntt (sample_vec hs p eta s n0)) = ntt (sample_poly_cbd eta (prf hs eta s (n0 + i))).
Proof.
  intro Hi. unfold nthp, sample_vec. rewrite map_map.
  apply (nth_map_seq (fun x => ntt (sample_poly_cbd eta (prf hs eta s (n0 + x))))). exact Hi.
Qed.

Lemma sample_vec_nth' eta s n0 i : (i < k p)%nat ->
  nthp i (sample_vec hs p eta s n0) = sample_poly_cbd eta (prf hs eta s (n0 + i)).
Proof.
  intro Hi. unfold nthp, sample_vec.
  apply (nth_map_seq (fun x => sample_poly_cbd eta (prf hs eta s (n0 + x)))). exact Hi.
Qed.

(** * Key generation *)
Section Keys.
Variables rho sigma : bytes.
Notation s := (key_s hs p sigma).
Notation e := (key_e hs p sigma).
Notation t := (key_t hs p rho sigma).

Lemma s_length i : length (s i) = 256%nat. Proof. apply sample_poly_cbd_length. Qed.
Lemma e_length i : length (e i) = 256%nat. Proof. apply sample_poly_cbd_length. Qed.
Lemma t_length i : length (t i) = 256%nat. Proof. apply radd_length. Qed.

Definition that_bytes : list bytes := map (fun i => enc_bytes 12 (ntt (t i))) (seq 0 (k p)).
Definition shat_bytes : list bytes := map (fun i => enc_bytes 12 (ntt (s i))) (seq 0 (k p)).

Lemma ntt_coeffs f : length f = 256%nat -> reduced q f ->
  length (ntt f) = 256%nat /\ Forall (fun x => 0 <= x < enc_mod 12) (ntt f).
Proof. intros L R. split; [apply ntt_length, L|]. rewrite enc_mod_12. apply ntt_reduced, R. Qed.

Lemma that_bytes_len : Forall (fun c => length c = 384%nat) that_bytes.
Proof.
  apply Forall_map, Forall_forall. intros i _.
  destruct (ntt_coeffs (t i) (t_length i) (radd_reduced _ _)).
  apply (enc_bytes_spec 12); [lia|assumption|assumption].
Qed.
Lemma shat_bytes_len : Forall (fun c => length c = 384%nat) shat_bytes.
Proof.
  apply Forall_map, Forall_forall. intros i _.
  destruct (ntt_coeffs (s i) (s_length i) (sample_poly_cbd_reduced _ _)).
  apply (enc_bytes_spec 12); [lia|assumption|assumption].
Qed.
Lemma that_bytes_length : length (concat that_bytes) = (384 * k p)%nat.
Proof. rewrite (concat_length 384) by apply that_bytes_len. unfold that_bytes. rewrite map_length, seq_length. reflexivity. Qed.
Lemma shat_bytes_length : length (concat shat_bytes) = (384 * k p)%nat.
Proof. rewrite (concat_length 384) by apply shat_bytes_len. unfold shat_bytes. rewrite map_length, seq_length. reflexivity. Qed.

Lemma that_decode i r : (i < k p)%nat ->
  byte_decode 12 (slice (384 * i) (384 * (i + 1)) (concat that_bytes ++ r)) = Ok (ntt (t i)).
Proof.
  intro Hi. rewrite (slice_concat 384); [|apply that_bytes_len|unfold that_bytes; rewrite map_length, seq_length; exact Hi].
  unfold that_bytes. rewrite (nth_map_seq (fun i => enc_bytes 12 (ntt (t i)))) by exact Hi.
  destruct (ntt_coeffs (t i) (t_length i) (radd_reduced _ _)). apply (enc_bytes_spec 12); [lia|assumption|assumption].
Qed.
Lemma shat_decode i r : (i < k p)%nat ->
  byte_decode 12 (slice (384 * i) (384 * (i + 1)) (concat shat_bytes ++ r)) = Ok (ntt (s i)).
Proof.
  intro Hi. rewrite (slice_concat 384); [|apply shat_bytes_len|unfold shat_bytes; rewrite map_length, seq_length; exact Hi].
  unfold shat_bytes. rewrite (nth_map_seq (fun i => enc_bytes 12 (ntt (s i)))) by exact Hi.
  destruct (ntt_coeffs (s i) (s_length i) (sample_poly_cbd_reduced _ _)). apply (enc_bytes_spec 12); [lia|assumption|assumption].
Qed.

Lemma keygen_vectors a : gen_matrix hs p rho = Ok a ->
  byte_encode_vec 12 (map (fun i => dot p (nthp i (map ntt (sample_vec hs p (eta1 p) sigma (k p))))
      (fun j => nthp j (nth i a [])) (fun j => nthp j (map ntt (sample_vec hs p (eta1 p) sigma 0)))) (seq 0 (k p)))
    = Ok (concat that_bytes) /\
  byte_encode_vec 12 (map ntt (sample_vec hs p (eta1 p) sigma 0)) = Ok (concat shat_bytes).
Proof.
  intro Ea. split.
  - replace (map _ (seq 0 (k p))) with (map (fun i => ntt (t i)) (seq 0 (k p))).
    + destruct (vec_encode 12 (map (fun i => ntt (t i)) (seq 0 (k p)))) as [E _]; [lia| |].
      * intros f Hf. apply in_map_iff in Hf as (i & <- & _). apply ntt_coeffs; [apply t_length|apply radd_reduced].
      * rewrite E, map_map. reflexivity.
    + apply map_ext_in. intros i Hi. apply in_seq in Hi. symmetry. unfold t.
      rewrite sample_vec_nth by lia. change (sample_poly_cbd (eta1 p) (prf hs (eta1 p) sigma (k p + i))) with (e i).
      rewrite (dot_ext p (ntt (e i)) _ _ (fun j => ntt (A hs rho i j)) (fun j => ntt (s j))).
      * apply ntt_dot; [apply e_length|apply sample_poly_cbd_reduced|]. intros j _. split; [apply A_length|apply s_length].
      * intros j Hj. split; [apply gen_matrix_nth; [exact Ea|lia|exact Hj]|]. rewrite sample_vec_nth by exact Hj. reflexivity.
  - unfold sample_vec. rewrite map_map. change (map _ (seq 0 (k p))) with (map (fun i => ntt (s i)) (seq 0 (k p))).
    destruct (vec_encode 12 (map (fun i => ntt (s i)) (seq 0 (k p)))) as [E _]; [lia| |].
    + intros f Hf. apply in_map_iff in Hf as (i & <- & _). apply ntt_coeffs; [apply s_length|apply sample_poly_cbd_reduced].
    + rewrite E, map_map. reflexivity.
Qed.

(** * Encryption *)
Section Enc.
Variables r m : bytes.
Hypothesis Lm : length m = 32%nat.
Hypothesis Bm : is_bytes m = true.
Hypothesis Lrho : length rho = 32%nat.
Notation y := (enc_y hs p r).
Notation u := (enc_u hs p rho r).
Notation v := (enc_v hs p rho sigma r m).

Definition u_bytes : list bytes := map (fun i => enc_bytes (du p) (compress (du p) (u i))) (seq 0 (k p)).
Definition v_bytes : bytes := enc_bytes (dv p) (compress (dv p) v).

Lemma y_length i : length (y i) = 256%nat. Proof. apply sample_poly_cbd_length. Qed.
Lemma u_length i : length (u i) = 256%nat. Proof. apply radd_length. Qed.
Lemma v_length : length v = 256%nat. Proof. apply radd_length. Qed.

Lemma encrypt_ok a : gen_matrix hs p rho = Ok a ->
  k_pke_encrypt hs p (concat that_bytes ++ rho) m r = Ok (concat u_bytes ++ v_bytes).
Proof.
  intro Ea. destruct Hp as [Hdu Hdv]. unfold k_pke_encrypt.
  rewrite (mapM_ok_map _ (fun i => ntt (t i))) by (intros i Hi; apply in_seq in Hi; apply that_decode; lia).
  cbn [bind]. cbv zeta.
  replace (slice (384 * k p) (384 * k p + 32) (concat that_bytes ++ rho)) with rho.
  2: { rewrite <- (Nat.add_0_r (384 * k p)) at 1. rewrite (slice_app_r _ _ (384 * k p)) by apply that_bytes_length.
       rewrite slice_all by exact Lrho. reflexivity. }
  rewrite Ea. cbn [bind]. destruct (msg_decode m Lm Bm) as (D & Dm & _). rewrite D. cbn [bind]. rewrite Dm.
  assert (EU : map (fun i => poly_add (ntt_inverse (dot p zero_poly (fun j => nthp i (nth j a []))
                  (fun j => nthp j (map ntt (sample_vec hs p (eta1 p) r 0)))))
                  (nthp i (sample_vec hs p (eta2 p) r (k p)))) (seq 0 (k p)) = map u (seq 0 (k p))).
  { apply map_ext_in. intros i Hi. apply in_seq in Hi. rewrite poly_add_radd. unfold u. f_equal.
    - rewrite (dot_ext p zero_poly _ _ (fun j => ntt (A hs rho j i)) (fun j => ntt (y j))).
      + apply intt_dot. intros j _. split; [apply A_length|apply y_length].
      + intros j Hj. split; [apply gen_matrix_nth; [exact Ea|exact Hj|lia]|].
        rewrite sample_vec_nth by exact Hj. reflexivity.
    - rewrite sample_vec_nth' by lia. reflexivity. }
  rewrite EU.
  assert (EV : ntt_inverse (dot p zero_poly (fun i => nthp i (map (fun i => ntt (t i)) (seq 0 (k p))))
                 (fun i => nthp i (map ntt (sample_vec hs p (eta1 p) r 0)))) = rsum (k p) (fun i => rmul (t i) (y i))).
  { rewrite (dot_ext p zero_poly _ _ (fun j => ntt (t j)) (fun j => ntt (y j))).
    - apply intt_dot. intros j _. split; [apply t_length|apply y_length].
    - intros j Hj. split; [unfold nthp; apply (nth_map_seq (fun i => ntt (t i))); exact Hj|].
      rewrite sample_vec_nth by exact Hj. reflexivity. }
  rewrite EV.
  change (poly_add (poly_add (rsum (k p) (fun i => rmul (t i) (y i)))
            (sample_poly_cbd (eta2 p) (prf hs (eta2 p) r (k p + k p)))) (mu m)) with v.
  destruct (vec_encode (du p) (map (compress (du p)) (map u (seq 0 (k p))))) as [E _]; [lia| |].
  { intros f Hf. rewrite map_map in Hf. apply in_map_iff in Hf as (i & <- & _). apply compress_ok; [lia|apply u_length]. }
  rewrite E. cbn [bind].
  destruct (compress_ok (dv p) v) as [C1 C2]; [lia|apply v_length|].
  destruct (enc_bytes_spec (dv p) (compress (dv p) v)) as (E2 & _); [lia|exact C1|exact C2|].
  rewrite E2. cbn [bind]. unfold u_bytes, v_bytes. rewrite !map_map. reflexivity.
Qed.

Lemma u_bytes_len : Forall (fun c => length c = (32 * du p)%nat) u_bytes.
Proof using Hp.
  clear - Hp. 
  destruct Hp as [Hdu Hdv]. apply Forall_map, Forall_forall. intros i _.
  destruct (compress_ok (du p) (u i)) as [C1 C2]; [lia|apply u_length|]. apply enc_bytes_spec; [lia|assumption|assumption].
Qed.
Lemma u_bytes_length : length (concat u_bytes) = (32 * du p * k p)%nat.
Proof using Hp.
  clear - Hp. rewrite (concat_length (32 * du p)) by apply u_bytes_len. unfold u_bytes. rewrite map_length, seq_length. reflexivity. Qed.
Lemma v_bytes_spec : length v_bytes = (32 * dv p)%nat /\ byte_decode (dv p) v_bytes = Ok (compress (dv p) v).
Proof using Hp.
  clear - Hp. 
  destruct Hp as [Hdu Hdv]. destruct (compress_ok (dv p) v) as [C1 C2]; [lia|apply v_length|].
  destruct (enc_bytes_spec (dv p) (compress (dv p) v)) as (_ & E & _ & D); [lia|assumption|assumption|]. auto.
Qed.

(** * Decryption *)
Definition up (i : nat) : list Z := decompress (du p) (compress (du p) (u i)).
Definition vp : list Z := decompress (dv p) (compress (dv p) v).
Lemma up_length i : length (up i) = 256%nat. Proof. unfold up, decompress, compress. rewrite !map_length. apply u_length. Qed.
Lemma vp_length : length vp = 256%nat. Proof. unfold vp, decompress, compress. rewrite !map_length. apply v_length. Qed.

Lemma err_u_nth i c : (c < 256)%nat -> nthz c (up i) = nthz c (u i) + nthz c (err_u hs p rho r i).
Proof.
  intro Hc. unfold err_u, comp_err. rewrite (nthz_map_seq (fun c => decompress1 (du p) (compress1 (du p) (coeff c (u i))) - coeff c (u i))) by exact Hc.
  unfold up, decompress, compress. rewrite map_map.
  rewrite (nthz_map (fun x => decompress1 (du p) (compress1 (du p) x))) by (rewrite u_length; exact Hc).
  change (coeff c (u i)) with (nthz c (u i)). ring.
Qed.
Lemma err_v_nth c : (c < 256)%nat -> nthz c vp = nthz c v + nthz c (err_v hs p rho sigma r m).
Proof.
  intro Hc. unfold err_v, comp_err. rewrite (nthz_map_seq (fun c => decompress1 (dv p) (compress1 (dv p) (coeff c v)) - coeff c v)) by exact Hc.
  unfold vp, decompress, compress. rewrite map_map.
  rewrite (nthz_map (fun x => decompress1 (dv p) (compress1 (dv p) x))) by (rewrite v_length; exact Hc).
  change (coeff c v) with (nthz c v). ring.
Qed.

Lemma rmul_add_r f g h h' : length f = 256%nat -> length g = 256%nat -> length h = 256%nat -> length h' = 256%nat ->
  (forall c, (c < 256)%nat -> cg q (nthz c h') (nthz c g + nthz c h)) ->
  forall c, (c < 256)%nat -> cg q (nthz c (rmul f h')) (nthz c (rmul f g) + nthz c (rmul f h)).
Proof.
  intros Lf Lg Lh Lh' E c Hc.
  apply (Lin_comb_add q 256 (fun g => rmul f g) g h h'); auto. apply ring_mul_Lin_r. exact q_pos.
Qed.
Lemma rmul_add_l f g h h' : length f = 256%nat -> length g = 256%nat -> length h = 256%nat -> length h' = 256%nat ->
  (forall c, (c < 256)%nat -> cg q (nthz c h') (nthz c g + nthz c h)) ->
  forall c, (c < 256)%nat -> cg q (nthz c (rmul h' f)) (nthz c (rmul g f) + nthz c (rmul h f)).
Proof.
  intros Lf Lg Lh Lh' E c Hc.
  apply (Lin_comb_add q 256 (fun g => rmul g f) g h h'); auto. apply ring_mul_Lin_l. exact q_pos.
Qed.

Lemma noise_identity c : (c < 256)%nat ->
  cg q (nthz c vp - zsum (k p) (fun i => nthz c (rmul (s i) (up i))))
       (nthz c (mu m) + nthz c (noise hs p rho sigma r m)).
Proof.
  intro Hc. rewrite err_v_nth by exact Hc. unfold v at 1.
  rewrite !radd_nth, rsum_nth by exact Hc.
  assert (T : cg q (zsum (k p) (fun i => nthz c (rmul (t i) (y i))))
     (zsum (k p) (fun i => nthz c (rmul (e i) (y i))) +
      zsum (k p) (fun i => zsum (k p) (fun j => nthz c (rmul (rmul (A hs rho i j) (s j)) (y i)))))).
  { rewrite <- zsum_add. apply zsum_cg. intros i Hi.
    rewrite (rmul_add_l (y i) (e i) (rsum (k p) (fun j => rmul (A hs rho i j) (s j))) (t i)
      (y_length i) (e_length i) (rsum_length _ _) (t_length i) (fun c Hc => radd_nth _ _ c Hc) c Hc).
    rewrite (Lin_zsum (fun g => rmul g (y i)) (k p) (fun j => rmul (A hs rho i j) (s j))
      (ring_mul_Lin_l q q_pos 256 (y i)) (fun j _ => rmul_length _ _)
      (rsum (k p) (fun j => rmul (A hs rho i j) (s j))) (rsum_length _ _) (fun c Hc => rsum_nth _ _ c Hc) c Hc).
    reflexivity. }
  assert (U : cg q (zsum (k p) (fun i => nthz c (rmul (s i) (up i))))
     (zsum (k p) (fun i => zsum (k p) (fun j => nthz c (rmul (s i) (rmul (A hs rho j i) (y j))))) +
      zsum (k p) (fun i => nthz c (rmul (s i) (radd (enc_e1 hs p r i) (err_u hs p rho r i)))))).
  { rewrite <- zsum_add. apply zsum_cg. intros i Hi.
    rewrite (rmul_add_r (s i) (rsum (k p) (fun j => rmul (A hs rho j i) (y j)))
       (radd (enc_e1 hs p r i) (err_u hs p rho r i)) (up i) (s_length i) (rsum_length _ _) (radd_length _ _) (up_length i)).
    - rewrite (Lin_zsum (fun g => rmul (s i) g) (k p) (fun j => rmul (A hs rho j i) (y j))
      (ring_mul_Lin_r q q_pos 256 (s i)) (fun j _ => rmul_length _ _)
      (rsum (k p) (fun j => rmul (A hs rho j i) (y j))) (rsum_length _ _) (fun c Hc => rsum_nth _ _ c Hc) c Hc).
      reflexivity.
    - intros c' Hc'. rewrite err_u_nth by exact Hc'. rewrite radd_nth by exact Hc'. unfold u.
      rewrite radd_nth by exact Hc'. apply cg_of_eq. ring.
    - exact Hc. }
  rewrite T, U.
  assert (SW : zsum (k p) (fun i => zsum (k p) (fun j => nthz c (rmul (s i) (rmul (A hs rho j i) (y j))))) =
               zsum (k p) (fun i => zsum (k p) (fun j => nthz c (rmul (rmul (A hs rho i j) (s j)) (y i))))).
  { rewrite zsum_swap. apply zsum_ext. intros i Hi. apply zsum_ext. intros j Hj.
    f_equal. symmetry. apply (rmul_exchange (A hs rho i j) (s j) (y i)); [apply A_length|apply s_length|apply y_length]. }
  rewrite SW. unfold noise. rewrite rsub_nth, !radd_nth, !rsum_nth by exact Hc.
  apply cg_of_eq. ring.
Qed.

Lemma decrypt_ok : no_failure hs p rho sigma r m ->
  k_pke_decrypt p (concat shat_bytes) (concat u_bytes ++ v_bytes) = Ok m.
Proof.
  intro NF. destruct Hp as [Hdu Hdv]. unfold k_pke_decrypt. cbv zeta.
  rewrite (slice_app_l (concat u_bytes) v_bytes) by apply u_bytes_length.
  replace (slice (32 * du p * k p) (32 * (du p * k p + dv p)) (concat u_bytes ++ v_bytes)) with v_bytes.
  2: { rewrite <- (Nat.add_0_r (32 * du p * k p)).
       replace (32 * (du p * k p + dv p))%nat with (32 * du p * k p + 32 * dv p)%nat by lia.
       rewrite (slice_app_r _ _ (32 * du p * k p)) by apply u_bytes_length.
       rewrite slice_all by apply v_bytes_spec. reflexivity. }
  rewrite (mapM_ok_map _ up).
  2: { intros i Hi. apply in_seq in Hi. rewrite <- (app_nil_r (concat u_bytes)).
       rewrite (slice_concat (32 * du p)); [|apply u_bytes_len|unfold u_bytes; rewrite map_length, seq_length; lia].
       unfold u_bytes. rewrite (nth_map_seq (fun i => enc_bytes (du p) (compress (du p) (u i)))) by lia.
       destruct (compress_ok (du p) (u i)) as [C1 C2]; [lia|apply u_length|].
       destruct (enc_bytes_spec (du p) (compress (du p) (u i))) as (_ & _ & _ & D); [lia|assumption|assumption|].
       rewrite D. reflexivity. }
  cbn [bind]. destruct v_bytes_spec as [_ Dv]. rewrite Dv. cbn [bind].
  rewrite (mapM_ok_map _ (fun i => ntt (s i))).
  2: { intros i Hi. apply in_seq in Hi. rewrite <- (app_nil_r (concat shat_bytes)). apply shat_decode. lia. }
  cbn [bind].
  rewrite (dot_ext p zero_poly _ _ (fun j => ntt (s j)) (fun j => ntt (up j))).
  2: { intros j Hj. unfold nthp. rewrite (nth_map_seq (fun i => ntt (s i))), (nth_map_seq up) by exact Hj. auto. }
  rewrite intt_dot by (intros j _; split; [apply s_length|apply up_length]).
  fold vp. destruct (msg_decode m Lm Bm) as (_ & _ & EM).
  replace (compress 1 _) with (map (msg_bit m) (seq 0 256)); [exact EM|].
  unfold compress, poly_sub. rewrite map_map. apply map_ext_in. intros c Hc. apply in_seq in Hc.
  symmetry. destruct (NF c) as (n & tt & En & Hn); [lia|].
  set (w := (nthz c vp - nthz c (rsum (k p) (fun j => rmul (s j) (up j)))) mod q).
  assert (Cw : cg q w (msg_bit m c * 1665 + n)).
  { unfold w. cgm. rewrite rsum_nth by lia. rewrite noise_identity by lia.
    change (nthz c (noise hs p rho sigma r m)) with (coeff c (noise hs p rho sigma r m)). rewrite En, <- q_val.
    unfold mu. rewrite (nthz_map_seq (fun c => msg_bit m c * 1665)) by lia.
    exists tt. ring. }
  destruct Cw as [z Ez].
  apply (bit_recovered (msg_bit m c) w n z).
  - assert (0 <= msg_bit m c < 2) by (apply Z.mod_pos_bound; lia). lia.
  - apply Z.mod_pos_bound, q_pos.
  - exact Ez.
  - exact Hn.
Qed.
End Enc.
End Keys.

Hypothesis Hh : forall x, length (sha3_256 hs x) = 32%nat.
Hypothesis Hg : forall x, length (sha3_512 hs x) = 64%nat.

Lemma hash_g_len x : length (fst (hash_g hs x)) = 32%nat /\ length (snd (hash_g hs x)) = 32%nat.
Proof. unfold hash_g. cbn [fst snd]. rewrite !slice_length by (rewrite ?Hg; lia). split; reflexivity. Qed.

(** Shape of a generated key pair. *)
Lemma keygen_shape d z ek dk : keygen_internal hs p d z = Ok (ek, dk) ->
  let rho := fst (hash_g hs (d ++ [Z.of_nat (k p)])) in
  let sigma := snd (hash_g hs (d ++ [Z.of_nat (k p)])) in
  (exists a, gen_matrix hs p rho = Ok a) /\
  ek = concat (that_bytes rho sigma) ++ rho /\
  dk = concat (shat_bytes sigma) ++ ek ++ sha3_256 hs ek ++ z.
Proof.
  unfold keygen_internal, k_pke_keygen. destruct (hash_g hs (d ++ [Z.of_nat (k p)])) as [rho sigma]. cbn [fst snd].
  intro E. destruct (gen_matrix hs p rho) as [a|] eqn:Ea; [|discriminate]. cbn [bind] in E.
  destruct (keygen_vectors rho sigma a Ea) as [E1 E2]. rewrite E1 in E. cbn [bind] in E. rewrite E2 in E.
  cbn [bind] in E. injection E as <- <-. split; [exists a; reflexivity|]. auto.
Qed.

Lemma dk_slices (dkp ek h z : bytes) : length dkp = (384 * k p)%nat -> length ek = (384 * k p + 32)%nat -> length h = 32%nat ->
  let dk := dkp ++ ek ++ h ++ z in
  slice 0 (384 * k p) dk = dkp /\
  slice (384 * k p) (768 * k p + 32) dk = ek /\
  slice (768 * k p + 32) (768 * k p + 64) dk = h /\
  slice (768 * k p + 64) (768 * k p + 96) dk = slice 0 32 z.
Proof.
  intros L1 L2 L3. cbv zeta.
  split. { apply slice_app_l, L1. }
  split. { rewrite <- (Nat.add_0_r (384 * k p)) at 1.
           replace (768 * k p + 32)%nat with (384 * k p + (384 * k p + 32))%nat by lia.
           rewrite (slice_app_r _ _ (384 * k p)) by exact L1. apply slice_app_l. exact L2. }
  split.
  - replace (768 * k p + 32)%nat with (384 * k p + (384 * k p + 32))%nat by lia.
    replace (768 * k p + 64)%nat with (384 * k p + (384 * k p + 64))%nat by lia.
    rewrite (slice_app_r _ _ (384 * k p)) by exact L1.
    rewrite <- (Nat.add_0_r (384 * k p + 32)). replace (384 * k p + 64)%nat with (384 * k p + 32 + 32)%nat by lia.
    rewrite (slice_app_r _ _ (384 * k p + 32)) by exact L2. apply slice_app_l, L3.
  - replace (768 * k p + 64)%nat with (384 * k p + (384 * k p + 64))%nat by lia.
    replace (768 * k p + 96)%nat with (384 * k p + (384 * k p + 96))%nat by lia.
    rewrite (slice_app_r _ _ (384 * k p)) by exact L1.
    replace (384 * k p + 64)%nat with (384 * k p + 32 + 32)%nat by lia.
    replace (384 * k p + 96)%nat with (384 * k p + 32 + (32 + 32))%nat by lia.
    rewrite (slice_app_r _ _ (384 * k p + 32)) by exact L2.
    rewrite <- (Nat.add_0_r 32) at 1. rewrite (slice_app_r _ _ 32) by exact L3. reflexivity.
Qed.

Lemma ek_length rho sigma : length rho = 32%nat -> length (concat (that_bytes rho sigma) ++ rho) = (384 * k p + 32)%nat.
Proof. intro L. rewrite app_length, that_bytes_length, L. reflexivity. Qed.

Theorem decaps_encaps d z m ek dk : keygen_internal hs p d z = Ok (ek, dk) ->
  length m = 32%nat -> is_bytes m = true ->
  exists K r c,
    hash_g hs (m ++ sha3_256 hs ek) = (K, r) /\
    encaps_internal hs p ek m = Ok (K, c) /\
    length c = (32 * (du p * k p + dv p))%nat /\
    (no_failure hs p (fst (hash_g hs (d ++ [Z.of_nat (k p)]))) (snd (hash_g hs (d ++ [Z.of_nat (k p)]))) r m ->
     decaps_internal hs p dk c = Ok K).
Proof.
  intros E Lm Bm. apply keygen_shape in E. cbv zeta in E.
  destruct (hash_g_len (d ++ [Z.of_nat (k p)])) as [Lrho _].
  set (rho := fst (hash_g hs (d ++ [Z.of_nat (k p)]))) in *. set (sigma := snd (hash_g hs (d ++ [Z.of_nat (k p)]))) in *.
  destruct E as ((a & Ea) & Eek & Edk).
  destruct (hash_g hs (m ++ sha3_256 hs ek)) as [K r] eqn:G.
  pose proof (encrypt_ok rho sigma r m Lm Bm Lrho a Ea) as EN. rewrite <- Eek in EN.
  exists K, r, (concat (u_bytes rho r) ++ v_bytes rho sigma r m). split; [reflexivity|]. split.
  { unfold encaps_internal, hash_h. rewrite G, EN. reflexivity. }
  split. { rewrite app_length, u_bytes_length. destruct (v_bytes_spec rho sigma r m) as [-> _]. lia. }
  intro NF. unfold decaps_internal. cbv zeta.
  destruct (dk_slices (concat (shat_bytes sigma)) ek (sha3_256 hs ek) z) as (S1 & S2 & S3 & _).
  { apply shat_bytes_length. } { rewrite Eek. apply ek_length. exact Lrho. } { apply Hh. }
  rewrite <- Edk in S1, S2, S3. rewrite S1, S2, S3.
  rewrite (decrypt_ok rho sigma r m Lm Bm Lrho NF). cbn [bind]. rewrite G, EN. cbn [bind].
  rewrite bytes_eqb_refl. reflexivity.
Qed.

(** * Implicit rejection *)
Lemma slice_full_length {A} (l : list A) a n : (a + n <= length l)%nat -> length (slice a (a + n) l) = n.
Proof. intro H. rewrite slice_length by lia. lia. Qed.

Lemma decrypt_total dkp c : length dkp = (384 * k p)%nat -> (32 * (du p * k p + dv p) <= length c)%nat ->
  exists m, k_pke_decrypt p dkp c = Ok m /\ length m = 32%nat /\ is_bytes m = true.
Proof.
  intros L1 L2. destruct Hp as [Hdu Hdv]. unfold k_pke_decrypt. cbv zeta.
  set (c1 := slice 0 (32 * du p * k p) c).
  assert (Lc1 : length c1 = (32 * du p * k p)%nat) by (unfold c1; apply (slice_full_length c 0); lia).
  set (c2 := slice (32 * du p * k p) (32 * (du p * k p + dv p)) c).
  assert (Lc2 : length c2 = (32 * dv p)%nat).
  { unfold c2. replace (32 * (du p * k p + dv p))%nat with (32 * du p * k p + 32 * dv p)%nat by lia.
    apply slice_full_length. lia. }
  assert (MD : forall (dd : nat) b n, length b = (32 * dd * n)%nat -> forall i, (i < n)%nat ->
     exists f, byte_decode dd (slice (32 * dd * i) (32 * dd * (i + 1)) b) = Ok f).
  { intros dd b n Lb i Hi. destruct (byte_decode_ok dd (slice (32 * dd * i) (32 * dd * (i + 1)) b)) as (f & E & _).
    - replace (32 * dd * (i + 1))%nat with (32 * dd * i + 32 * dd)%nat by lia. apply slice_full_length. nia.
    - exists f. exact E. }
  assert (MM : forall (B : Type) (F : nat -> result B) n, (forall i, (i < n)%nat -> exists x, F i = Ok x) ->
     exists xs, mapM F (seq 0 n) = Ok xs).
  { intros B F n H. assert (K : forall l, (forall i, In i l -> exists x, F i = Ok x) -> exists xs, mapM F l = Ok xs).
    { induction l as [|i l IH]; intro Hl; [exists []; reflexivity|]. cbn [mapM].
      destruct (Hl i) as [x ->]; [left; reflexivity|]. cbn [bind].
      destruct IH as [xs ->]; [intros; apply Hl; right; assumption|]. cbn [bind]. eexists. reflexivity. }
    apply K. intros i Hi. apply in_seq in Hi. apply H. lia. }
  destruct (MM _ (fun i => let! b := byte_decode (du p) (slice (32 * du p * i) (32 * du p * (i + 1)) c1) in
                  Ok (decompress (du p) b)) (k p)) as [ups EU].
  { intros i Hi. destruct (MD (du p) c1 (k p) Lc1 i Hi) as [f Ef]. rewrite Ef. eexists. reflexivity. }
  rewrite EU. cbn [bind].
  destruct (byte_decode_ok (dv p) c2 Lc2) as (vb & EV & _). rewrite EV. cbn [bind].
  destruct (MM _ (fun i => byte_decode 12 (slice (384 * i) (384 * (i + 1)) dkp)) (k p)) as [ss ES].
  { intros i Hi. apply (MD 12%nat dkp (k p) L1 i Hi). }
  rewrite ES. cbn [bind].
  match goal with |- context [byte_encode 1 (compress 1 ?w)] => set (ww := w) end.
  destruct (compress_ok 1 ww) as [C1 C2]; [lia|unfold ww, poly_sub; rewrite map_length, seq_length; reflexivity|].
  destruct (encode_decode_coeffs 1 (compress 1 ww)) as (b & E & Lb & Bb & _); [lia|exact C1|exact C2|].
  exists b. split; [exact E|]. split; [lia|exact Bb].
Qed.

(** What decapsulation returns, in terms of the public API. *)
Theorem decaps_cases dkp ek z c : length dkp = (384 * k p)%nat -> length ek = (384 * k p + 32)%nat ->
  (32 * (du p * k p + dv p) <= length c)%nat ->
  let dk := dkp ++ ek ++ sha3_256 hs ek ++ z in
  exists m, length m = 32%nat /\ is_bytes m = true /\
  decaps_internal hs p dk c =
    match encaps_internal hs p ek m with
    | Ok (K, c') => if bytes_eqb c c' then Ok K else Ok (shake256 hs (slice 0 32 z ++ c) 32)
    | Err e => Err e
    end.
Proof.
  intros L1 L2 L3. cbv zeta.
  destruct (dk_slices dkp ek (sha3_256 hs ek) z L1 L2 (Hh ek)) as (S1 & S2 & S3 & S4). cbv zeta in *.
  destruct (decrypt_total dkp c L1 L3) as (m & E & Lm & Bm). exists m. split; [exact Lm|]. split; [exact Bm|].
  unfold decaps_internal, encaps_internal, hash_h, hash_j. cbv zeta. rewrite S1, S2, S3, S4, E. cbn [bind].
  destruct (hash_g hs (m ++ sha3_256 hs ek)) as [K r].
  destruct (k_pke_encrypt hs p ek m r) as [c'|]; [|reflexivity]. cbn [bind].
  destruct (bytes_eqb c c'); reflexivity.
Qed.
End Kem.
