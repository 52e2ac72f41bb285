(** A concrete instance of the hash functions, used to show that the hypotheses
    of the ML-KEM theorems are met. *)
From Verif Require Import LatFacts LatRing MlKemNtt MlKemCodec MlKemProofs MlKemKem MlKemMore.
Local Open Scope Z_scope.

(** A toy generator and toy digests; nothing depends on their quality.  The
    512-bit digest only looks at the first 32 bytes, the PRF returns two bytes
    that depend on the input and zeros after them. *)
Fixpoint toy_gen (n : nat) (s : Z) : bytes :=
  match n with O => [] | S n' => (s / 256) mod 256 :: toy_gen n' ((s * 25173 + 13849) mod 65536) end.
Definition toy_seed (x : bytes) : Z := fold_left (fun a b => (a * 31 + b + 7) mod 65521) x 1.
Definition toy_hash (n : nat) (x : bytes) : bytes := toy_gen n (toy_seed x).

Lemma toy_gen_length n : forall s, length (toy_gen n s) = n.
Proof. induction n; intro s; simpl; [reflexivity|]. rewrite IHn. reflexivity. Qed.
Lemma toy_gen_bytes n : forall s, is_bytes (toy_gen n s) = true.
Proof.
  induction n as [|n IH]; intro s; [reflexivity|]. cbn [toy_gen]. unfold is_bytes in *. cbn [forallb].
  rewrite IH, andb_true_r. unfold is_byte. pose proof (Z.mod_pos_bound (s / 256) 256).
  apply andb_true_iff. split; apply Z.leb_le || apply Z.ltb_lt; lia.
Qed.

Definition toy : hashes :=
  {| sha3_256 := toy_hash 32; sha3_512 := fun x => toy_hash 64 (firstn 32 x);
     shake256 := fun x n => toy_hash 2 x ++ repeat 0 (n - 2); xof128 := toy_hash 1200 |}.

Lemma toy_lengths : hash_lengths toy.
Proof.
  split; [intro; apply toy_gen_length|]. split; [intro; apply toy_gen_length|]. intro; apply toy_gen_bytes.
Qed.

(** * Evaluating the noise *)
(** The product by a polynomial with few nonzero coefficients. *)
Definition nonzero (f : list Z) : list nat := filter (fun i => negb (coeff i f =? 0)) (seq 0 256).
Definition sp_mul (f g : list Z) : list Z :=
  let nz := nonzero f in
  map (fun c => fold_right (fun i a => a + coeff i f * (if (i <=? c)%nat then coeff (c - i) g else - coeff (256 + c - i) g)) 0 nz mod 3329)
      (seq 0 256).

Lemma fold_filter (F : nat -> Z) (P : nat -> bool) l : (forall i, P i = false -> F i = 0) ->
  fold_right (fun i a => a + F i) 0 (filter P l) = fold_right (fun i a => a + F i) 0 l.
Proof.
  intro H. induction l as [|i l IH]; [reflexivity|]. cbn [filter fold_right]. destruct (P i) eqn:E.
  - cbn [fold_right]. rewrite IH. reflexivity.
  - rewrite IH, (H i E). lia.
Qed.
Lemma zsum_fold n (F : nat -> Z) : zsum n F = fold_right (fun i a => a + F i) 0 (seq 0 n).
Proof.
  assert (G : forall l x, fold_right (fun i a => a + F i) x l = fold_right (fun i a => a + F i) 0 l + x).
  { induction l as [|i l IH]; intro x; cbn [fold_right]; [lia|]. rewrite IH. lia. }
  induction n as [|n IH]; [reflexivity|]. cbn [zsum]. rewrite seq_S, fold_right_app. cbn [fold_right Nat.add].
  rewrite G, IH. lia.
Qed.
Lemma rmul_sp f g : rmul f g = sp_mul f g.
Proof.
  unfold rmul, ring_mul, sp_mul, nonzero. apply map_ext. intro c. f_equal. rewrite zsum_fold. symmetry.
  apply fold_filter. intros i H. apply negb_false_iff, Z.eqb_eq in H. rewrite H. ring.
Qed.

(** The terms of [noise] with sparse products. *)
Section Fast.
Variable hs : hashes.
Variable p : params.
Variables rho sigma r m : bytes.
Definition fkey_t (i : nat) : list Z := radd (key_e hs p sigma i) (rsum (k p) (fun j => sp_mul (key_s hs p sigma j) (A hs rho i j))).
Definition fenc_u (i : nat) : list Z := radd (rsum (k p) (fun j => sp_mul (enc_y hs p r j) (A hs rho j i))) (enc_e1 hs p r i).
Definition fenc_v : list Z :=
  radd (radd (rsum (k p) (fun i => sp_mul (enc_y hs p r i) (fkey_t i))) (enc_e2 hs p r)) (mu m).
Definition fnoise : list Z :=
  rsub (radd (radd (rsum (k p) (fun i => sp_mul (key_e hs p sigma i) (enc_y hs p r i))) (enc_e2 hs p r)) (comp_err (dv p) fenc_v))
       (rsum (k p) (fun i => sp_mul (key_s hs p sigma i) (radd (enc_e1 hs p r i) (comp_err (du p) (fenc_u i))))).

Lemma rsum_ext n f g : (forall i, (i < n)%nat -> f i = g i) -> rsum n f = rsum n g.
Proof.
  induction n as [|n IH]; intro H; [reflexivity|]. cbn [rsum]. rewrite IH by (intros; apply H; lia). rewrite (H n) by lia. reflexivity.
Qed.
Hypothesis Hx : forall x, is_bytes (xof128 hs x) = true.
Lemma fnoise_ok : noise hs p rho sigma r m = fnoise.
Proof.
  unfold noise, fnoise.
  assert (ET : forall i, key_t hs p rho sigma i = fkey_t i).
  { intro i. unfold key_t, fkey_t. f_equal. apply rsum_ext. intros j _. rewrite <- rmul_sp.
    apply rmul_comm; [apply A_length, Hx|apply sample_poly_cbd_length]. }
  assert (EU : forall i, enc_u hs p rho r i = fenc_u i).
  { intro i. unfold enc_u, fenc_u. f_equal. apply rsum_ext. intros j _. rewrite <- rmul_sp.
    apply rmul_comm; [apply A_length, Hx|apply sample_poly_cbd_length]. }
  assert (EV : enc_v hs p rho sigma r m = fenc_v).
  { unfold enc_v, fenc_v. f_equal. f_equal. apply rsum_ext. intros j _. rewrite <- rmul_sp, <- ET.
    apply rmul_comm; [apply radd_length|apply sample_poly_cbd_length]. }
  unfold err_v. rewrite EV. f_equal.
  - f_equal. f_equal. apply rsum_ext. intros j _. apply rmul_sp.
  - apply rsum_ext. intros j _. unfold err_u. rewrite EU. apply rmul_sp.
Qed.
End Fast.

(** A sufficient condition for [no_failure] that can be computed. *)
Lemma no_failure_check hs p rho sigma r m : (forall x, is_bytes (xof128 hs x) = true) ->
  forallb (fun x => (-832 <=? x) && (x <=? 831) || (2497 <=? x) && (x <=? 4160)) (fnoise hs p rho sigma r m) = true ->
  no_failure hs p rho sigma r m.
Proof.
  intros Hx H c Hc. rewrite <- fnoise_ok in H by exact Hx.
  rewrite forallb_forall in H. specialize (H (coeff c (noise hs p rho sigma r m))).
  assert (I : In (coeff c (noise hs p rho sigma r m)) (noise hs p rho sigma r m)).
  { apply nth_In. unfold noise, rsub. rewrite map_length, seq_length. exact Hc. }
  specialize (H I). set (x := coeff c (noise hs p rho sigma r m)) in *.
  destruct ((-832 <=? x) && (x <=? 831)) eqn:E.
  - apply andb_true_iff in E as [E1 E2]. apply Z.leb_le in E1, E2. exists x, 0. lia.
  - simpl in H. apply andb_true_iff in H as [H1 H2]. apply Z.leb_le in H1, H2. exists (x - 3329), 1. lia.
Qed.

(** * One key pair and one message *)
Definition ex_d : bytes := map (fun i => Z.of_nat i) (seq 1 32).
Definition ex_z : bytes := map (fun i => Z.of_nat (255 - i)) (seq 0 32).
Definition ex_m : bytes := map (fun i => Z.of_nat (i * 7)) (seq 2 32).

Definition ex_rho : bytes := firstn 32 (toy_hash 64 ex_d).
Definition ex_sigma : bytes := skipn 32 (toy_hash 64 ex_d).
Definition ex_r : bytes := skipn 32 (toy_hash 64 ex_m).
Definition ex_key : bytes := firstn 32 (toy_hash 64 ex_m).

Lemma ex_no_failure : no_failure toy ml_kem_512 ex_rho ex_sigma ex_r ex_m.
Proof. apply no_failure_check; [apply toy_lengths|]. vm_cast_no_check (eq_refl true). Qed.

Lemma ex_streams : forallb (fun i => forallb (fun j =>
   (256 <=? length (accepted_candidates 3329 (xof128 toy (ex_rho ++ [Z.of_nat j; Z.of_nat i]))))%nat) (seq 0 2)) (seq 0 2) = true.
Proof. vm_cast_no_check (eq_refl true). Qed.

Lemma toy_g x y : length x = 32%nat -> hash_g toy (x ++ y) = (firstn 32 (toy_hash 64 x), skipn 32 (toy_hash 64 x)).
Proof.
  intro L. unfold hash_g. cbn [sha3_512 toy]. rewrite firstn_app, L, Nat.sub_diag, firstn_O, app_nil_r, <- L, firstn_all.
  unfold slice. rewrite Nat.sub_0_r, L. cbn [skipn]. change (64 - 32)%nat with 32%nat.
  rewrite (firstn_all2 (skipn 32 (toy_hash 64 x))); [reflexivity|].
  rewrite skipn_length. unfold toy_hash. rewrite toy_gen_length. lia.
Qed.

Lemma ex_keygen : exists ek dk, keygen_internal toy ml_kem_512 ex_d ex_z = Ok (ek, dk).
Proof.
  apply keygen_total; [left; reflexivity|apply toy_lengths|].
  intros i j Hi Hj. change (k ml_kem_512) with 2%nat in *.
  pose proof (forallb_seq 2 _ ex_streams i Hi) as E. cbv beta in E.
  apply (forallb_seq 2) with (c := j) in E; [|exact Hj]. apply Nat.leb_le in E. exact E.
Qed.
