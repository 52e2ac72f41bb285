(** ML-DSA: key generation, signing and verification. *)
From Verif Require Export MlDsaEnc PreludeFacts.
From Coq Require Import Setoid Morphisms.
Local Open Scope Z_scope.
Local Opaque ntt ntt_inverse mul_ntt decompose.

Lemma nthp_map (F : list Z -> list Z) v i : (i < length v)%nat -> nthp i (map F v) = F (nthp i v).
Proof.
  intro H. unfold nthp. rewrite (nth_indep _ [] (F [])) by (rewrite map_length; exact H). apply map_nth.
Qed.
Lemma nthp_seq (F : nat -> list Z) n i : (i < n)%nat -> nthp i (map F (seq 0 n)) = F i.
Proof. apply nth_map_seq. Qed.
Lemma nthp_forall (P : list Z -> Prop) v i : Forall P v -> (i < length v)%nat -> P (nthp i v).
Proof. intros F H. rewrite Forall_forall in F. apply F, nth_In. exact H. Qed.
Lemma nthz_forall (P : Z -> Prop) f c : Forall P f -> (c < length f)%nat -> P (nthz c f).
Proof. intros F H. rewrite Forall_forall in F. apply F, nth_In. exact H. Qed.
Lemma vec_in_nth a b n v i : vec_in a b n v -> (i < n)%nat ->
  length (nthp i v) = 256%nat /\ Forall (fun x => a <= x <= b) (nthp i v).
Proof. intros [L F] Hi. apply (nthp_forall _ v i F). rewrite L. exact Hi. Qed.

Lemma Forall_iff {X} (P Q : X -> Prop) l : (forall x, P x <-> Q x) -> Forall P l <-> Forall Q l.
Proof. intro H. split; apply Forall_impl; intro x; apply H. Qed.

(** * weight *)
Lemma pweight_filter a w : fold_left (fun w x => (w + (if (x =? 0)%Z then 0 else 1))%nat) a w =
  (w + length (filter (fun x => negb (x =? 0)%Z) a))%nat.
Proof.
  revert w. induction a as [|x a IH]; intro w; cbn [fold_left filter]; [simpl; lia|]. rewrite IH.
  destruct (Z.eqb_spec x 0); cbn [negb length]; lia.
Qed.
Lemma weight_nonzeros v : weight v = nonzeros v.
Proof.
  unfold weight, nonzeros.
  enough (K : forall w, fold_left (fun w a => (w + pweight a)%nat) v w = (w + length (filter (fun x => negb (x =? 0)%Z) (concat v)))%nat)
    by (rewrite K; reflexivity).
  induction v as [|a v IH]; intro w; cbn [fold_left concat]; [simpl; lia|]. rewrite IH. unfold pweight.
  rewrite pweight_filter, filter_app, app_length. lia.
Qed.

(** * Parameters *)
Lemma gam1_pos p : good_params p -> 0 < gam1 p - beta p /\ 2 * gam1 p < q /\ 0 < beta p + 1.
Proof.
  intros (_ & _ & He & _ & Ht & Hb & Hg & _). rewrite q_val. rewrite Hb.
  assert (0 <= Z.of_nat (tau p) * eta p <= 256) by (destruct He as [->| ->]; lia).
  destruct Hg as [->| ->]; lia.
Qed.

Section Sig.
Variable hs : hashes.
Variable p : params.
Hypothesis Hp : good_params p.
Hypothesis Hh : hash_lengths hs.

Lemma A_length rho i j : length (A hs rho i j) = 256%nat.
Proof using Hh.
  unfold A. destruct (rej_ntt_poly _) eqn:E; [|apply repeat_length].
  apply ntt_inverse_length. apply (rej_ntt_poly_ok _ _ (proj1 (proj2 Hh) _) E).
Qed.

Lemma byte_of_nat n : (n < 256)%nat -> integer_to_bytes (Z.of_nat n) 1 = [Z.of_nat n].
Proof.
  intro H. cbn [integer_to_bytes]. f_equal. change 255 with (Z.ones 8). rewrite Z.land_ones by lia. apply Z.mod_small.
  change (2 ^ 8) with 256. lia.
Qed.

Hypothesis Hdim : (k p < 256)%nat /\ (ell p < 256)%nat.

Lemma expand_a_nth rho a : expand_a hs p rho = Ok a -> forall i j, (i < k p)%nat -> (j < ell p)%nat ->
  nthp j (nth i a []) = ntt (A hs rho i j).
Proof using Hh Hdim.
  intros E i j Hi Hj. unfold expand_a in E. destruct (mapM_ok_inv _ _ _ E) as [_ N].
  specialize (N i 0%nat []). rewrite seq_length, seq_nth in N by assumption. specialize (N Hi). cbn [Nat.add] in N.
  destruct (mapM_ok_inv _ _ _ N) as [_ N2]. specialize (N2 j 0%nat []).
  rewrite seq_length, seq_nth in N2 by assumption. specialize (N2 Hj). cbn [Nat.add] in N2.
  rewrite !byte_of_nat in N2 by lia. unfold A, nthp. rewrite N2. symmetry. apply ntt_intt_eq.
  apply (rej_ntt_poly_ok _ _ (proj1 (proj2 Hh) _) N2).
Qed.

(** [w_i = sum_j A_ij y_j] *)
Definition Av (rho : bytes) (y : list (list Z)) (i : nat) : list Z :=
  rsum (ell p) (fun j => rmul (A hs rho i j) (nthp j y)).

Definition polys (n : nat) (v : list (list Z)) : Prop := length v = n /\ Forall (fun f => length f = 256%nat) v.
Lemma polys_nth n v i : polys n v -> (i < n)%nat -> length (nthp i v) = 256%nat.
Proof. intros [L F] Hi. apply (nthp_forall (fun f => length f = 256%nat) v i F). rewrite L. exact Hi. Qed.

Lemma mv_row rho a y i : expand_a hs p rho = Ok a -> polys (ell p) y -> (i < k p)%nat ->
  nthp i (matrix_vector_ntt p a (map ntt y)) =
  row (ell p) (fun j => ntt (A hs rho i j)) (fun j => ntt (nthp j y)).
Proof using Hh Hdim.
  intros E Py Hi. rewrite matrix_vector_row, nthp_seq by exact Hi. apply row_ext. intros j Hj.
  split; [apply expand_a_nth; assumption|]. apply nthp_map. destruct Py as [-> _]. exact Hj.
Qed.

Lemma mv_intt rho a y : expand_a hs p rho = Ok a -> polys (ell p) y ->
  map ntt_inverse (matrix_vector_ntt p a (map ntt y)) = map (Av rho y) (seq 0 (k p)).
Proof using Hh Hdim.
  intros E Py. apply (nth_ext _ _ [] []).
  - rewrite matrix_vector_row, !map_length. reflexivity.
  - intros i Hi. rewrite matrix_vector_row, !map_length, seq_length in Hi.
    change (nth i (map ntt_inverse ?x) []) with (nthp i (map ntt_inverse x)).
    rewrite nthp_map by (rewrite matrix_vector_row, map_length, seq_length; exact Hi).
    rewrite (mv_row rho) by assumption. rewrite row_intt.
    + symmetry. apply (nth_map_seq (Av rho y)). exact Hi.
    + intros j Hj. split; [apply A_length|apply (polys_nth (ell p)); assumption].
Qed.

(** The argument of UseHint in verification: [A z - c t1 2^d]. *)
Definition shl13 (t : list Z) : list Z := map (fun x => x * 2 ^ 13) t.
Definition w_approx (rho : bytes) (t1 : list (list Z)) (c : list Z) (z : list (list Z)) (i : nat) : list Z :=
  rsub (Av rho z i) (rmul c (shl13 (nthp i t1))).

Lemma w_approx_model rho a t1 c z : expand_a hs p rho = Ok a -> polys (ell p) z -> polys (k p) t1 -> length c = 256%nat ->
  map (fun i => ntt_inverse (psub (nthp i (matrix_vector_ntt p a (map ntt z)))
                 (nthp i (map (mul_ntt (ntt c)) (map (fun t => ntt (map (fun x => Z.shiftl x (Z.of_nat (d p))) t)) t1))))) (seq 0 (k p))
  = map (w_approx rho t1 c z) (seq 0 (k p)).
Proof using Hh Hdim Hp.
  intros E Pz Pt Lc. apply map_ext_in. intros i Hi. apply in_seq in Hi. rewrite (mv_row rho) by (assumption || lia).
  rewrite map_map. rewrite (nthp_map (fun t => mul_ntt (ntt c) (ntt (map (fun x => Z.shiftl x (Z.of_nat (d p))) t)))) by (destruct Pt as [-> _]; lia).
  rewrite row_sub_intt.
  - unfold w_approx, Av. do 2 f_equal. unfold shl13. apply map_ext. intro x. destruct Hp as (-> & _). apply Z.shiftl_mul_pow2. lia.
  - intros j Hj. split; [apply A_length|apply (polys_nth (ell p)); assumption].
  - exact Lc.
  - rewrite map_length. apply (polys_nth (k p)); [exact Pt|lia].
Qed.

(** * One signing attempt against a key *)
Section Key.
Variables (rho : bytes) (ah : list (list (list Z))) (s1 s2 t1 t0 : list (list Z)).
Hypothesis Ea : expand_a hs p rho = Ok ah.
Hypothesis Vs1 : vec_in (- eta p) (eta p) (ell p) s1.
Hypothesis Vs2 : vec_in (- eta p) (eta p) (k p) s2.
Hypothesis Vt0 : vec_in (- 4095) 4096 (k p) t0.
Hypothesis Vt1 : polys (k p) t1.
(** [t1 2^d + t0 = A s1 + s2] *)
Hypothesis Ht : forall i c, (i < k p)%nat -> (c < 256)%nat ->
  cg q (nthz c (nthp i t1) * 2 ^ 13 + nthz c (nthp i t0)) (nthz c (Av rho s1 i) + nthz c (nthp i s2)).

Lemma vec_polys a b n v : vec_in a b n v -> polys n v.
Proof. intros [L F]. split; [exact L|]. eapply Forall_impl; [|exact F]. intros f [H _]. exact H. Qed.

Lemma approx_identity c y z i : length c = 256%nat -> polys (ell p) y -> polys (ell p) z -> (i < k p)%nat ->
  (forall j x, (j < ell p)%nat -> (x < 256)%nat ->
     cg q (nthz x (nthp j z)) (nthz x (nthp j y) + nthz x (rmul c (nthp j s1)))) ->
  forall x, (x < 256)%nat ->
  cg q (nthz x (w_approx rho t1 c z i))
       (nthz x (Av rho y i) - nthz x (rmul c (nthp i s2)) + nthz x (rmul c (nthp i t0))).
Proof using Hh Ht Vs1 Vs2 Vt0 Vt1.
  intros Lc Py Pz Hi Ez x Hx. unfold w_approx. rewrite rsub_nth by exact Hx.
  pose proof (rsum_linear (ell p) (A hs rho i) (fun j => nthp j y) (fun j => nthp j s1) (fun j => nthp j z) c Lc) as R.
  rewrite (R (fun j Hj => conj (A_length rho i j) (conj (polys_nth _ _ _ Py Hj)
             (conj (proj1 (vec_in_nth _ _ _ _ _ Vs1 Hj)) (polys_nth _ _ _ Pz Hj)))) Ez x Hx).
  fold (Av rho y i). fold (Av rho s1 i). clear R.
  destruct (vec_in_nth _ _ _ _ _ Vs2 Hi) as [Ls2 _]. destruct (vec_in_nth _ _ _ _ _ Vt0 Hi) as [Lt0 _].
  pose proof (polys_nth _ _ _ Vt1 Hi) as Lt1.
  assert (Lsh : length (shl13 (nthp i t1)) = 256%nat) by (unfold shl13; rewrite map_length; exact Lt1).
  assert (LA : length (Av rho s1 i) = 256%nat) by apply rsum_length.
  pose proof (Lin_comb_add q 256 (fun g => rmul c g) (shl13 (nthp i t1)) (nthp i t0) (radd (shl13 (nthp i t1)) (nthp i t0))
    (rmul_Lin_r c) Lsh Lt0 (radd_length _ _) (fun j Hj => radd_nth _ _ j Hj) x Hx) as E1. cbv beta in E1.
  pose proof (Lin_comb_add q 256 (fun g => rmul c g) (Av rho s1 i) (nthp i s2) (radd (shl13 (nthp i t1)) (nthp i t0))
    (rmul_Lin_r c) LA Ls2 (radd_length _ _)) as E2. cbv beta in E2.
  rewrite E2 in E1; [| |exact Hx].
  - clear E2. 
    assert (E3 : cg q (nthz x (rmul c (shl13 (nthp i t1))))
                      (nthz x (rmul c (Av rho s1 i)) + nthz x (rmul c (nthp i s2)) - nthz x (rmul c (nthp i t0)))).
    { rewrite E1. apply cg_of_eq. ring. }
    rewrite E3. apply cg_of_eq. ring.
  - intros c0 Hc0. rewrite radd_nth by exact Hc0. rewrite <- Ht by assumption. unfold shl13.
    rewrite nthz_map by (rewrite Lt1; exact Hc0). reflexivity.
Qed.

Definition zc (z : list (list Z)) : list (list Z) := map (map (fun x => modpm x q)) z.

Lemma inf_norm_zc z b : 0 < b -> inf_norm (zc z) < b <-> inf_norm z < b.
Proof.
  intro Hb. rewrite !inf_norm_lt by exact Hb. unfold zc. rewrite Forall_map. apply Forall_iff. clear.
  intro f. rewrite Forall_map. apply Forall_iff. intro x. rewrite modpm_idem. reflexivity.
Qed.

Definition vmul (c : list Z) (v : list (list Z)) : list (list Z) := map (rmul c) v.
Lemma vmul_model c v n : length c = 256%nat -> polys n v -> map (fun s => ntt_inverse (mul_ntt (ntt c) s)) (map ntt v) = vmul c v.
Proof.
  intros Lc [_ F]. unfold vmul. rewrite map_map. apply map_ext_in. intros f Hf. apply rmul_intt; [exact Lc|].
  rewrite Forall_forall in F. apply F. exact Hf.
Qed.

Lemma cs_small c s i x n : length c = 256%nat -> asum c = Z.of_nat (tau p) -> vec_in (- eta p) (eta p) n s ->
  (i < n)%nat -> (x < 256)%nat -> small q (beta p) (nthz x (rmul c (nthp i s))).
Proof using Hp.
  clear Hdim.
  intros Lc Ac Vs Hi Hx. destruct (vec_in_nth _ _ _ _ _ Vs Hi) as [_ F].
  destruct Hp as (_ & _ & He & _ & Htau & Hb & _). rewrite Hb, <- Ac. apply challenge_small; try assumption.
  - destruct He as [->| ->]; lia.
  - rewrite Ac, q_val. destruct He as [->| ->]; lia.
Qed.

Lemma low_bits_norm g r b : good_gam2 g -> Z.abs (modpm (snd (decompose g r)) q) < b -> Z.abs (snd (decompose g r)) < b.
Proof.
  intros Hg H. rewrite modpm_q_id in H; [exact H|]. destruct (decompose_spec g r Hg) as (_ & _ & B).
  rewrite q_val. destruct Hg as [->| ->]; lia.
Qed.

Theorem attempt_ok mu rhopp kappa ct z h :
  sign_attempt hs p ah (map ntt s1) (map ntt s2) (map ntt t0) mu rhopp kappa = Ok (Some (ct, z, h)) ->
  exists c w1 w1t, sample_in_ball p (xof256 hs ct) = Ok c /\ length c = 256%nat /\
    w1_encode p w1 = Ok w1t /\ ct = shake256 hs (mu ++ w1t) (Nat.div (lam p) 4) /\
    z_ok p (zc z) /\ inf_norm (zc z) < gam1 p - beta p /\ is_hint (k p) (omega p) h /\
    use_hint p h (map (w_approx rho t1 c (zc z)) (seq 0 (k p))) = w1.
Proof using All.
  unfold sign_attempt. intro E.
  destruct (expand_mask hs p rhopp kappa) as [y|] eqn:Ey; [|discriminate]. cbn [bind] in E.
  assert (Py : polys (ell p) y).
  { unfold expand_mask in Ey. destruct (mapM_ok_inv _ _ _ Ey) as [L N]. rewrite seq_length in L. split; [exact L|].
    apply Forall_forall. intros f Hf. destruct (In_nth _ _ [] Hf) as (i & Hi & <-).
    specialize (N i 0%nat []). rewrite seq_length in N. specialize (N ltac:(lia)).
    unfold bit_unpack in N. destruct (mapM_ok_inv _ _ _ N) as [L2 _]. rewrite seq_length in L2. exact L2. }
  rewrite (mv_intt rho ah y Ea Py) in E.
  set (w := map (Av rho y) (seq 0 (k p))) in *.
  destruct (w1_encode p (high_bits p w)) as [w1t|] eqn:Ew1; [|discriminate]. cbn [bind] in E.
  set (ct' := shake256 hs (mu ++ w1t) (Nat.div (lam p) 4)) in *.
  destruct (sample_in_ball p (xof256 hs ct')) as [c|] eqn:Ec; [|discriminate]. cbn [bind] in E.
  destruct (sample_in_ball_ok p (xof256 hs ct') c) as (Lc & _ & Ac); [destruct Hp as (_ & _ & _ & _ & ? & _); lia|apply Hh|exact Ec|].
  rewrite (vmul_model c s1 (ell p) Lc (vec_polys _ _ _ _ Vs1)), (vmul_model c s2 (k p) Lc (vec_polys _ _ _ _ Vs2)),
    (vmul_model c t0 (k p) Lc (vec_polys _ _ _ _ Vt0)) in E.
  set (zz := map (fun i => padd (nthp i y) (nthp i (vmul c s1))) (seq 0 (ell p))) in *.
  set (r := map (fun i => psub (nthp i w) (nthp i (vmul c s2))) (seq 0 (k p))) in *.
  set (hr := map (fun i => padd (psub (nthp i w) (nthp i (vmul c s2))) (nthp i (vmul c t0))) (seq 0 (k p))) in *.
  destruct (_ || _) eqn:N1 in E; [discriminate|]. apply orb_false_iff in N1 as [Nz Nr].
  destruct (_ || _) eqn:N2 in E; [discriminate|]. apply orb_false_iff in N2 as [Nt Nw].
  injection E as <- <- <-.
  rewrite Z.geb_leb in Nz, Nr, Nt. apply Z.leb_gt in Nz, Nr, Nt. apply Nat.ltb_ge in Nw.
  set (h := make_hint p (map pneg (vmul c t0)) hr) in *.
  pose proof (gam1_pos p Hp) as (G1 & G2 & G3).
  pose proof Hp as (_ & Hg2 & He & _ & Htau & Hb & _).
  assert (Bb : 0 <= beta p <= 256) by (rewrite Hb; destruct He as [->| ->]; lia).
  assert (GB : 0 < gam2 p - beta p) by (destruct Hg2 as [->| ->]; lia).
  assert (GP : 0 < gam2 p) by (destruct Hg2 as [->| ->]; lia).
  exists c, (high_bits p w), w1t.
  (* shapes *)
  assert (Lw : forall i, (i < k p)%nat -> nthp i w = Av rho y i) by (intros; unfold w; apply nthp_seq; assumption).
  assert (LAv : forall v i, length (Av rho v i) = 256%nat) by (intros; apply rsum_length).
  assert (M : forall v n i, length v = n -> (i < n)%nat -> nthp i (vmul c v) = rmul c (nthp i v))
    by (intros v n i Lv Hi; unfold vmul; apply nthp_map; lia).
  assert (Pzz : forall j, (j < ell p)%nat -> nthp j zz = radd (nthp j y) (rmul c (nthp j s1))).
  { intros j Hj. unfold zz. rewrite nthp_seq by exact Hj. rewrite (M s1 (ell p)) by (try exact Hj; apply Vs1).
    apply padd_radd. apply (polys_nth (ell p)); assumption. }
  assert (Pr : forall i, (i < k p)%nat -> nthp i r = rsub (Av rho y i) (rmul c (nthp i s2))).
  { intros i Hi. unfold r. rewrite nthp_seq by exact Hi. rewrite Lw by exact Hi.
    rewrite (M s2 (k p)) by (try exact Hi; apply Vs2). apply psub_rsub, LAv. }
  assert (Phr : forall i, (i < k p)%nat -> nthp i hr = radd (rsub (Av rho y i) (rmul c (nthp i s2))) (rmul c (nthp i t0))).
  { intros i Hi. unfold hr. rewrite nthp_seq by exact Hi. rewrite Lw by exact Hi.
    rewrite (M s2 (k p)) by (try exact Hi; apply Vs2). rewrite (M t0 (k p)) by (try exact Hi; apply Vt0).
    rewrite psub_rsub by apply LAv. apply padd_radd, rsub_length. }
  assert (Lr : length r = k p) by (unfold r; rewrite map_length, seq_length; reflexivity).
  assert (Lhr : length hr = k p) by (unfold hr; rewrite map_length, seq_length; reflexivity).
  assert (Lzz : length zz = ell p) by (unfold zz; rewrite map_length, seq_length; reflexivity).
  assert (Pz : polys (ell p) (zc zz)).
  { unfold zc. split; [rewrite map_length; exact Lzz|]. apply Forall_forall. intros f Hf.
    apply in_map_iff in Hf as (g & <- & Hgz). rewrite map_length. destruct (In_nth _ _ [] Hgz) as (j & Hj & <-).
    rewrite Lzz in Hj. change (nth j zz []) with (nthp j zz). rewrite Pzz by exact Hj. apply radd_length. }
  assert (Ez : forall j x, (j < ell p)%nat -> (x < 256)%nat ->
     cg q (nthz x (nthp j (zc zz))) (nthz x (nthp j y) + nthz x (rmul c (nthp j s1)))).
  { intros j x Hj Hx. unfold zc. rewrite nthp_map by lia. rewrite Pzz by exact Hj.
    rewrite nthz_map by (rewrite radd_length; exact Hx). rewrite modpm_cg. apply radd_nth. exact Hx. }
  assert (Whr : forall i, (i < k p)%nat -> w_approx rho t1 c (zc zz) i = nthp i hr).
  { intros i Hi. rewrite Phr by exact Hi. apply red_eq; [apply rsub_length|apply radd_length|apply rsub_reduced|apply radd_reduced|].
    intros x Hx. rewrite (approx_identity c y (zc zz) i Lc Py Pz Hi Ez x Hx).
    rewrite radd_nth by exact Hx. rewrite rsub_nth by exact Hx. reflexivity. }
  assert (Lct0 : length (map pneg (vmul c t0)) = k p) by (unfold vmul; rewrite !map_length; apply Vt0).
  assert (Ph : h = map (fun i => pneq (map (fun x => fst (decompose (gam2 p) x)) (nthp i hr))
                   (map (fun x => fst (decompose (gam2 p) x)) (padd (nthp i hr) (pneg (rmul c (nthp i t0)))))) (seq 0 (k p))).
  { unfold h, make_hint, vneq, high_bits. rewrite map_length, Lhr. apply map_ext_in. intros i Hi. apply in_seq in Hi.
    rewrite nthp_map by lia. rewrite nthp_map by (unfold vadd; rewrite map_length, seq_length; lia).
    unfold vadd. rewrite Lhr, nthp_seq by lia. rewrite nthp_map by (unfold vmul; rewrite map_length; destruct Vt0 as [-> _]; lia).
    rewrite (M t0 (k p)) by (try lia; apply Vt0). reflexivity. }
  assert (Lhri : forall i, (i < k p)%nat -> length (nthp i hr) = 256%nat) by (intros i Hi; rewrite Phr by exact Hi; apply radd_length).
  assert (Hbit : forall i x, (i < k p)%nat -> (x < 256)%nat -> nthz x (nthp i h) =
    if fst (decompose (gam2 p) (nthz x (nthp i hr))) =? fst (decompose (gam2 p) (nthz x (padd (nthp i hr) (pneg (rmul c (nthp i t0))))))
    then 0 else 1).
  { intros i x Hi Hx. rewrite Ph, nthp_seq by exact Hi. unfold pneq. rewrite map_length, Lhri by exact Hi.
    rewrite (nthz_map_seq (fun x0 => if nthz x0 (map (fun x => fst (decompose (gam2 p) x)) (nthp i hr)) =?
       nthz x0 (map (fun x => fst (decompose (gam2 p) x)) (padd (nthp i hr) (pneg (rmul c (nthp i t0))))) then 0 else 1)) by exact Hx.
    rewrite !nthz_map by (try (rewrite padd_radd by (apply Lhri; exact Hi); rewrite radd_length); try rewrite Lhri; assumption).
    reflexivity. }
  assert (Ihint : is_hint (k p) (omega p) h).
  { split; [rewrite Ph, map_length, seq_length; reflexivity|]. split; [|rewrite <- weight_nonzeros; exact Nw].
    rewrite Ph. apply Forall_map, Forall_forall. intros i Hi. apply in_seq in Hi. unfold pneq. rewrite map_length.
    split; [rewrite map_length, seq_length; apply Lhri; lia|]. apply Forall_map, Forall_forall. intros x _. destruct (_ =? _); auto. }
  split; [exact Ec|]. split; [exact Lc|]. split; [exact Ew1|]. split; [reflexivity|].
  assert (Nzc : inf_norm (zc zz) < gam1 p - beta p) by (apply inf_norm_zc; assumption).
  split.
  { destruct Pz as [Pz1 Pz2]. split; [exact Pz1|]. apply (inf_norm_lt zz _ G1) in Nz. unfold zc. apply Forall_map.
    apply Forall_forall. intros f Hf. rewrite Forall_forall in Nz, Pz2. specialize (Nz f Hf).
    split; [apply Pz2; unfold zc; apply in_map; exact Hf|]. apply Forall_map. eapply Forall_impl; [|exact Nz].
    intros x Hx. cbv beta in *. lia. }
  split; [exact Nzc|]. split; [exact Ihint|].
  (* hints recover the high bits *)
  unfold use_hint, high_bits, w. rewrite map_map. rewrite Ph at 1. rewrite map_length, seq_length.
  apply map_ext_in. intros i Hi. apply in_seq in Hi. cbn [Nat.add] in Hi. destruct Hi as [_ Hi].
  rewrite nthp_seq by exact Hi. rewrite Whr by exact Hi.
  apply nthz_ext; [rewrite !map_length, seq_length; symmetry; apply LAv|].
  intros x Hx. rewrite map_length, seq_length in Hx.
  rewrite (nthz_map_seq (fun x => use_hint1 (gam2 p) (nthz x (nthp i h)) (nthz x (nthp i hr)))) by exact Hx.
  rewrite nthz_map by (rewrite LAv; exact Hx).
  rewrite Hbit by assumption.
  assert (Lt0 : length (nthp i t0) = 256%nat) by (apply (vec_in_nth _ _ _ _ _ Vt0 Hi)).
  assert (Npneg : nthz x (pneg (rmul c (nthp i t0))) = (- nthz x (rmul c (nthp i t0))) mod q)
    by (unfold pneg; apply nthz_map; rewrite rmul_length; exact Hx).
  set (v := nthz x (padd (nthp i hr) (pneg (rmul c (nthp i t0))))).
  assert (Ev : cg q v (nthz x (nthp i hr) - nthz x (rmul c (nthp i t0)))).
  { unfold v. rewrite padd_radd by (apply Lhri; exact Hi). rewrite radd_nth by exact Hx. rewrite Npneg, cg_mod by exact q_nz.
    apply cg_of_eq. ring. }
  assert (Evr : cg q v (nthz x (nthp i r))).
  { rewrite Ev, Phr, Pr by exact Hi. rewrite radd_nth by exact Hx. apply cg_of_eq. ring. }
  rewrite (use_make_hint (gam2 p) (nthz x (nthp i hr)) v (- nthz x (rmul c (nthp i t0))) Hg2 Ev).
  - rewrite (decompose_cg (gam2 p) v _ Evr). symmetry.
    apply (high_stable (gam2 p) (beta p) _ _ (nthz x (rmul c (nthp i s2))) Hg2).
    + rewrite Pr by exact Hi. rewrite rsub_nth by exact Hx. apply cg_of_eq. ring.
    + apply (cs_small c s2 i x (k p)); assumption.
    + apply low_bits_norm; [exact Hg2|].
      apply (inf_norm_lt _ _ GB) in Nr. unfold low_bits in Nr. rewrite Forall_map in Nr.
      assert (Hir : (i < length r)%nat) by lia.
      pose proof (nthp_forall _ r i Nr Hir) as Q. cbv beta in Q. rewrite Forall_map in Q.
      assert (Hxr : (x < length (nthp i r))%nat) by (rewrite Pr by exact Hi; rewrite rsub_length; exact Hx).
      exact (nthz_forall _ _ x Q Hxr).
  - apply (inf_norm_lt _ _ GP) in Nt.
    assert (Hic : (i < length (vmul c t0))%nat) by (unfold vmul; rewrite map_length; destruct Vt0 as [-> _]; exact Hi).
    pose proof (nthp_forall _ _ i Nt Hic) as Q. cbv beta in Q. rewrite (M t0 (k p)) in Q by (try exact Hi; apply Vt0).
    assert (Hxr : (x < length (rmul c (nthp i t0)))%nat) by (rewrite rmul_length; exact Hx).
    pose proof (nthz_forall _ _ x Q Hxr) as Q'. cbv beta in Q'.
    destruct (modpm_spec (nthz x (rmul c (nthp i t0))) q q_pos) as ((tt & Et) & Bt).
    set (m := modpm _ q) in *. exists (- m). split; [|lia]. split; [exists (- tt); lia|].
    rewrite q_val in *. destruct Hg2 as [G|G]; rewrite G in *; lia.
Qed.
End Key.

(** * Key generation *)
Definition seeds (xi : bytes) : bytes :=
  shake256 hs (xi ++ integer_to_bytes (Z.of_nat (k p)) 1 ++ integer_to_bytes (Z.of_nat (ell p)) 1) 128.
Definition key_t (rho : bytes) (s1 s2 : list (list Z)) : list (list Z) :=
  map (fun i => radd (Av rho s1 i) (nthp i s2)) (seq 0 (k p)).

Lemma keygen_eq xi ah s1 s2 : let rho := slice 0 32 (seeds xi) in let kk := slice 96 128 (seeds xi) in
  let t1 := fst (power2round p (key_t rho s1 s2)) in let t0 := snd (power2round p (key_t rho s1 s2)) in
  expand_a hs p rho = Ok ah -> expand_s hs p (slice 32 96 (seeds xi)) = Ok (s1, s2) ->
  exists pk sk, keygen_internal hs p xi = Ok (pk, sk) /\
    pk_encode p rho t1 = Ok pk /\ vec_in (- eta p) (eta p) (ell p) s1 /\ vec_in (- eta p) (eta p) (k p) s2 /\
    vec_in (- 4095) 4096 (k p) t0 /\ t1_ok (k p) t1 /\
    (forall i c, (i < k p)%nat -> (c < 256)%nat ->
       nthz c (nthp i t1) * 2 ^ 13 + nthz c (nthp i t0) = nthz c (radd (Av rho s1 i) (nthp i s2))) /\
    pk_decode p pk = Ok (rho, t1) /\
    sk_decode p sk = Ok {| sk_rho := rho; sk_kk := kk; sk_tr := shake256 hs pk 64; sk_s1 := s1; sk_s2 := s2; sk_t0 := t0 |} /\
    length pk = (32 + 320 * k p)%nat /\ length sk = sk_len p /\ is_bytes pk = true /\ is_bytes sk = true.
Proof using All.
  cbv zeta. pose proof Hp as (Hd & _). set (se := seeds xi) in *.
  assert (Lse : length se = 128%nat) by apply Hh. assert (Bse : is_bytes se = true) by apply Hh.
  set (rho := slice 0 32 se) in *. set (kk := slice 96 128 se) in *. set (rhop := slice 32 96 se) in *. intros Ea Es.
  assert (Vs : vec_in (- eta p) (eta p) (ell p) s1 /\ vec_in (- eta p) (eta p) (k p) s2).
  { unfold expand_s in Es. destruct (mapM _ (seq 0 (ell p))) as [v1|] eqn:E1; [|discriminate]. cbn [bind] in Es.
    destruct (mapM _ (seq 0 (k p))) as [v2|] eqn:E2; [|discriminate]. injection Es as <- <-.
    destruct (mapM_ok_inv _ _ _ E1) as [L1 N1]. destruct (mapM_ok_inv _ _ _ E2) as [L2 N2]. rewrite seq_length in *.
    split.
    - split; [exact L1|]. apply Forall_forall. intros f Hf. destruct (In_nth _ _ [] Hf) as (i & Hi & <-).
      rewrite L1 in Hi. specialize (N1 i 0%nat [] Hi). apply rej_bounded_poly_ok in N1; [exact N1|apply Hh].
    - split; [exact L2|]. apply Forall_forall. intros f Hf. destruct (In_nth _ _ [] Hf) as (i & Hi & <-).
      rewrite L2 in Hi. specialize (N2 i 0%nat [] Hi). apply rej_bounded_poly_ok in N2; [exact N2|apply Hh]. }
  destruct Vs as [Vs1 Vs2].
  set (t := key_t rho s1 s2).
  assert (Et : map (fun i => padd (ntt_inverse (nthp i (matrix_vector_ntt p ah (map ntt s1)))) (nthp i s2)) (seq 0 (k p)) = t).
  { apply map_ext_in. intros i Hi. apply in_seq in Hi.
    rewrite (mv_row rho ah s1 i Ea (vec_polys _ _ _ _ Vs1)) by lia. rewrite row_intt.
    - apply padd_radd, rsum_length.
    - intros j Hj. split; [apply A_length|apply (vec_in_nth _ _ _ _ _ Vs1 Hj)]. }
  assert (Pt : forall i, (i < k p)%nat -> nthp i t = radd (Av rho s1 i) (nthp i s2)).
  { intros i Hi. unfold t, key_t. apply nthp_seq. exact Hi. }
  assert (Lt : length t = k p) by (unfold t, key_t; rewrite map_length, seq_length; reflexivity).
  unfold power2round. rewrite Hd. cbn [fst snd].
  set (t1 := map (map (fun x => fst (power2round1 13 x))) t) in *.
  set (t0 := map (map (fun x => snd (power2round1 13 x))) t) in *.
  assert (Ft : Forall (fun f => length f = 256%nat) t).
  { apply Forall_forall. intros f Hf. destruct (In_nth _ _ [] Hf) as (i & Hi & <-). change (nth i t []) with (nthp i t).
    rewrite Pt by lia. apply radd_length. }
  assert (V1 : t1_ok (k p) t1).
  { split; [unfold t1; rewrite map_length; exact Lt|]. unfold t1. apply Forall_map. eapply Forall_impl; [|exact Ft].
    intros f Lf. split; [rewrite map_length; exact Lf|]. apply Forall_map, Forall_forall. intros x _.
    destruct (power2round1 13 x) as [a b] eqn:P. apply power2round_spec in P. apply P. }
  assert (V0 : vec_in (- 4095) 4096 (k p) t0).
  { split; [unfold t0; rewrite map_length; exact Lt|]. unfold t0. apply Forall_map. eapply Forall_impl; [|exact Ft].
    intros f Lf. split; [rewrite map_length; exact Lf|]. apply Forall_map, Forall_forall. intros x _.
    destruct (power2round1 13 x) as [a b] eqn:P. apply power2round_spec in P. destruct P as (_ & (_ & P) & _). cbn [snd].
    change (2 ^ 13) with 8192 in P. lia. }
  assert (Lrho : length rho = 32%nat) by (unfold rho; rewrite slice_length; lia).
  assert (Lkk : length kk = 32%nat) by (unfold kk; rewrite slice_length; lia).
  destruct (pk_roundtrip p rho t1 Hd Lrho V1) as (pk & K1 & K2 & K3 & K4).
  destruct (sk_roundtrip p rho kk (shake256 hs pk 64) s1 s2 t0 Hd Lrho Lkk (proj1 (proj1 Hh _ _)) Vs1 Vs2 V0)
    as (sk & S1 & S2 & S3 & S4). exists pk, sk. split.
  { unfold keygen_internal. fold (seeds xi). fold se. fold rho rhop kk. rewrite Ea. cbn [bind]. rewrite Es. cbn [bind].
    rewrite Et. unfold power2round. rewrite Hd. fold t1 t0. rewrite K1. cbn [bind]. rewrite S1. reflexivity. }
  split; [exact K1|]. split; [exact Vs1|]. split; [exact Vs2|]. split; [exact V0|]. split; [exact V1|].
  split.
  { intros i c Hi Hc. rewrite <- Pt by exact Hi. unfold t1, t0. rewrite !nthp_map by lia.
    assert (Lti : length (nthp i t) = 256%nat) by (rewrite Pt by exact Hi; apply radd_length).
    rewrite !nthz_map by lia. destruct (power2round1 13 (nthz c (nthp i t))) as [a b] eqn:P.
    apply power2round_spec in P as (P & _). cbn [fst snd]. rewrite <- P. apply Z.mod_small.
    apply reduced_nthz; [exact q_pos|]. rewrite Pt by exact Hi. apply radd_reduced. }
  split; [exact K4|]. split; [exact S4|]. split; [exact K2|]. split; [exact S2|].
  assert (Br : is_bytes rho = true) by (apply slice_bytes; exact Bse).
  split; [apply K3; exact Br|]. apply S3; [exact Br|apply slice_bytes; exact Bse|apply Hh].
Qed.

Lemma keygen_ok xi pk sk : keygen_internal hs p xi = Ok (pk, sk) ->
  exists rho kk ah s1 s2 t1 t0,
    expand_a hs p rho = Ok ah /\ vec_in (- eta p) (eta p) (ell p) s1 /\ vec_in (- eta p) (eta p) (k p) s2 /\
    vec_in (- 4095) 4096 (k p) t0 /\ t1_ok (k p) t1 /\
    (forall i c, (i < k p)%nat -> (c < 256)%nat ->
       nthz c (nthp i t1) * 2 ^ 13 + nthz c (nthp i t0) = nthz c (radd (Av rho s1 i) (nthp i s2))) /\
    pk_decode p pk = Ok (rho, t1) /\
    sk_decode p sk = Ok {| sk_rho := rho; sk_kk := kk; sk_tr := shake256 hs pk 64; sk_s1 := s1; sk_s2 := s2; sk_t0 := t0 |} /\
    length pk = (32 + 320 * k p)%nat /\ length sk = sk_len p /\ is_bytes pk = true /\ is_bytes sk = true.
Proof using All.
  intro E. pose proof E as E0. unfold keygen_internal in E0. fold (seeds xi) in E0.
  destruct (expand_a hs p (slice 0 32 (seeds xi))) as [ah|] eqn:Ea; [|discriminate]. cbn [bind] in E0.
  destruct (expand_s hs p (slice 32 96 (seeds xi))) as [[s1 s2]|] eqn:Es; [|discriminate]. clear E0.
  destruct (keygen_eq xi ah s1 s2 Ea Es) as (pk' & sk' & E' & _ & R). rewrite E in E'. injection E' as <- <-.
  exists (slice 0 32 (seeds xi)), (slice 96 128 (seeds xi)), ah, s1, s2, (fst (power2round p (key_t (slice 0 32 (seeds xi)) s1 s2))),
    (snd (power2round p (key_t (slice 0 32 (seeds xi)) s1 s2))). split; [exact Ea|exact R].
Qed.

(** * Signatures verify *)
Lemma z_ok_polys z : z_ok p z -> polys (ell p) z.
Proof. intros [L F]. split; [exact L|]. eapply Forall_impl; [|exact F]. intros f [H _]. exact H. Qed.
Lemma t1_ok_polys t1 : t1_ok (k p) t1 -> polys (k p) t1.
Proof. intros [L F]. split; [exact L|]. eapply Forall_impl; [|exact F]. intros f [H _]. exact H. Qed.

Theorem signature_verifies xi pk sk fuel mp rnd sg :
  keygen_internal hs p xi = Ok (pk, sk) -> sign_internal hs p fuel sk mp rnd = Some (Ok sg) ->
  length sg = sig_len p /\ is_bytes sg = true /\ verify_internal hs p pk mp sg = Ok true.
Proof using All.
  intros K S. destruct (keygen_ok xi pk sk K) as (rho & kk & ah & s1 & s2 & t1 & t0 & Ea & V1 & V2 & V0 & Vt1 & Ht & Dp & Ds & _).
  unfold sign_internal in S. rewrite Ds in S. cbn [sk_rho sk_kk sk_tr sk_s1 sk_s2 sk_t0] in S. rewrite Ea in S.
  set (mu := shake256 hs (shake256 hs pk 64 ++ mp) 64) in *. set (rhopp := shake256 hs (kk ++ rnd ++ mu) 64) in *.
  revert S. generalize 0. induction fuel as [|fuel IH]; intros kappa S; [discriminate|]. cbn [sign_loop] in S.
  destruct (sign_attempt hs p ah (map ntt s1) (map ntt s2) (map ntt t0) mu rhopp kappa) as [[[[ct z] h]|]|] eqn:At;
    [|apply (IH _ S)|discriminate]. clear IH.
  destruct (attempt_ok rho ah s1 s2 t1 t0 Ea V1 V2 V0 (t1_ok_polys _ Vt1)) with (2 := At) as
    (c & w1 & w1t & Ec & Lc & Ew & Ect & Zok & Nz & Hi & Uh).
  { intros i x Hi Hx. rewrite Ht by assumption. apply radd_nth. exact Hx. }
  injection S as S. fold (zc z) in S.
  assert (Lct : length ct = Nat.div (lam p) 4) by (rewrite Ect; apply Hh).
  assert (Bct : is_bytes ct = true) by (rewrite Ect; apply Hh).
  destruct (sig_roundtrip p ct (zc z) h Hp Lct Zok Hi) as (sg' & G1 & G2 & G3 & G4). rewrite G1 in S. injection S as <-.
  split; [exact G2|]. split; [apply G3; exact Bct|].
  unfold verify_internal. rewrite Dp. cbn [bind]. rewrite G4. cbn [bind]. rewrite Ea. cbn [bind]. rewrite Ec. cbn [bind].
  rewrite (w_approx_model rho ah t1 c (zc z) Ea (z_ok_polys _ Zok) (t1_ok_polys _ Vt1) Lc).
  rewrite Uh, Ew. cbn [bind]. fold mu. rewrite <- Ect, bytes_eqb_refl, andb_true_r. f_equal. apply Z.ltb_lt. exact Nz.
Qed.

(** * What verification decides *)
Lemma use_hint_shape h v : length h = k p -> polys (k p) (use_hint p h v).
Proof.
  intro L. unfold use_hint. split; [rewrite map_length, seq_length; exact L|]. apply Forall_map, Forall_forall.
  intros i _. rewrite map_length, seq_length. reflexivity.
Qed.
Lemma w1_encode_total v : polys (k p) v -> exists b, w1_encode p v = Ok b.
Proof.
  intros [_ F]. unfold w1_encode, pack_all.
  assert (K : exists bs, mapM (fun w => simple_bit_pack w ((q - 1) / (2 * gam2 p) - 1)) v = Ok bs).
  { induction F as [|f v Lf _ (bs & E)]; [exists []; reflexivity|].
    destruct (simple_pack_total f ((q - 1) / (2 * gam2 p) - 1) Lf) as (b & Eb & _). exists (b :: bs). cbn [mapM]. rewrite Eb. cbn [bind].
    rewrite E. reflexivity. }
  destruct K as (bs & ->). eexists. reflexivity.
Qed.

Lemma inf_norm_z z : z_ok p z -> inf_norm z < gam1 p - beta p <->
  (forall f x, In f z -> In x f -> Z.abs x < gam1 p - beta p).
Proof using Hp.
  clear Hdim. intros [_ F]. destruct (gam1_pos p Hp) as (G1 & G2 & _). rewrite inf_norm_lt by exact G1. rewrite !Forall_forall in *.
  split.
  - intros H f x Hf Hx. specialize (H f Hf). rewrite Forall_forall in H. specialize (H x Hx).
    destruct (F f Hf) as [_ Ff]. rewrite Forall_forall in Ff. specialize (Ff x Hx). rewrite modpm_q_id in H by lia. exact H.
  - intros H f Hf. apply Forall_forall. intros x Hx.
    destruct (F f Hf) as [_ Ff]. rewrite Forall_forall in Ff. specialize (Ff x Hx). rewrite modpm_q_id by lia. apply (H f x Hf Hx).
Qed.

Lemma err_runtime_mapM {X Y} (F : X -> result Y) l e : (forall x e', F x = Err e' -> e' = e) ->
  forall e', mapM F l = Err e' -> e' = e.
Proof.
  intro H. induction l as [|x l IH]; intros e' E; [discriminate|]. cbn [mapM] in E.
  destruct (F x) eqn:Fx; cbn [bind] in E; [|injection E as <-; apply (H x _ Fx)].
  destruct (mapM F l) eqn:M; [discriminate|]. injection E as <-. apply (IH _ eq_refl).
Qed.
Lemma rej_ntt_err s e : rej_ntt_poly s = Err e -> e = ERuntimeError.
Proof.
  unfold rej_ntt_poly. generalize 256%nat. intro n. enough (K : forall m s, (length s <= m)%nat -> forall n, rej_ntt_loop n s = Err e -> e = ERuntimeError)
    by (apply (K (length s) s (le_n _))).
  clear. induction m as [|m IH]; intros s Hm n E.
  - destruct s; [|simpl in Hm; lia]. destruct n; [discriminate|]. injection E as <-. reflexivity.
  - destruct n as [|n]; [destruct s; discriminate|]. destruct s as [|b0 [|b1 [|b2 s]]]; try (injection E as <-; reflexivity).
    cbn [rej_ntt_loop] in E. cbn [length] in Hm. destruct (coeff_from_three_bytes b0 b1 b2).
    + destruct (rej_ntt_loop n s) eqn:R; [discriminate|]. injection E as <-. apply (IH s ltac:(lia) n R).
    + apply (IH s ltac:(lia) (S n) E).
Qed.
Lemma expand_a_err rho e : expand_a hs p rho = Err e -> e = ERuntimeError.
Proof.
  intro E. unfold expand_a in E. refine (err_runtime_mapM _ _ _ _ _ E). intros r e' E'.
  refine (err_runtime_mapM _ _ _ _ _ E'). intros x e'' E''. apply (rej_ntt_err _ _ E'').
Qed.

Lemma read_upto_err i s e : read_upto i s = Err e -> e = ERuntimeError.
Proof.
  induction s as [|x s IH]; intro E; [injection E as <-; reflexivity|]. cbn [read_upto] in E.
  destruct (x >? Z.of_nat i); [apply (IH E)|discriminate].
Qed.
Lemma ball_loop_err h n : length h = 64%nat -> (tau p <= 64)%nat -> forall i s c e, (i + n = 256)%nat -> 
  ball_loop p (seq i n) h s c = Err e -> e = ERuntimeError.
Proof using.
  clear Hdim. intros Lh Htau. induction n as [|n IH]; intros i s c e Hi E; [discriminate|].
  change (seq i (S n)) with (i :: seq (S i) n) in E. cbn [ball_loop] in E.
  destruct (read_upto i s) as [[j s']|] eqn:R; cbn [bind] in E; [|injection E as <-; apply (read_upto_err _ _ _ R)].
  destruct (Nat.leb_spec (length h) (i + tau p - 256)); [lia|]. eapply IH; [|exact E]. lia.
Qed.
Lemma ball_err s e : sample_in_ball p s = Err e -> e = ERuntimeError.
Proof using Hp.
  clear Hdim. pose proof Hp as (_ & _ & _ & _ & Ht & _). unfold sample_in_ball. destruct (Nat.ltb_spec (length s) 8); [intros [= <-]; reflexivity|].
  intro E. apply ball_loop_err in E; auto; [|lia]. rewrite bytes_to_bits_length, firstn_length. lia.
Qed.

Theorem verify_decides pk mp sg : length pk = (32 + 320 * k p)%nat -> is_bytes pk = true ->
  length sg = sig_len p -> is_bytes sg = true ->
  verify_internal hs p pk mp sg = Err ERuntimeError \/
  exists b, verify_internal hs p pk mp sg = Ok b /\ (b = true <-> accepts hs p pk mp sg).
Proof using All.
  intros Lp Bp Ls Bs. pose proof Hp as (Hd & _).
  destruct (pk_decode_encode p pk Hd Lp Bp) as (rho & t1 & Dp & _ & Vt1 & _).
  destruct (sig_decode_total p sg Hp Ls Bs) as (ct & z & o & Dsg & Lct & Zok & Ho).
  unfold verify_internal. rewrite Dp. cbn [bind]. rewrite Dsg. cbn [bind].
  destruct o as [h|].
  2: { right. exists false. split; [reflexivity|]. split; [discriminate|].
       intros (rho' & t1' & ct' & z' & h' & c & w1t & A1 & A2 & _). rewrite Dsg in A2. discriminate. }
  destruct (Ho h eq_refl) as [(Lh & _) _].
  destruct (expand_a hs p rho) as [ah|e] eqn:Ea; cbn [bind]; [|left; rewrite (expand_a_err _ _ Ea); reflexivity].
  destruct (sample_in_ball p (xof256 hs ct)) as [c|e] eqn:Ec; cbn [bind]; [|left; rewrite (ball_err _ _ Ec); reflexivity].
  destruct (sample_in_ball_ok p (xof256 hs ct) c) as (Lc & _ & _); [destruct Hp as (_ & _ & _ & _ & ? & _); lia|apply Hh|exact Ec|].
  rewrite (w_approx_model rho ah t1 c z Ea (z_ok_polys _ Zok) (t1_ok_polys _ Vt1) Lc).
  destruct (w1_encode_total (use_hint p h (map (w_approx rho t1 c z) (seq 0 (k p)))) (use_hint_shape _ _ Lh)) as (w1t & Ew).
  rewrite Ew. cbn [bind]. right. eexists. split; [reflexivity|]. rewrite andb_true_iff, Z.ltb_lt, bytes_eqb_eq.
  rewrite (inf_norm_z z Zok). split.
  - intros [Nz Ect]. exists rho, t1, ct, z, h, c, w1t. split; [exact Dp|]. split; [exact Dsg|]. split; [exact Ec|]. split; [exact Nz|].
    split; [rewrite Hd; exact Ew|exact Ect].
  - intros (rho' & t1' & ct' & z' & h' & c' & w1t' & A1 & A2 & A3 & A4 & A5 & A6).
    rewrite Dp in A1. injection A1 as <- <-. rewrite Dsg in A2. injection A2 as <- <- <-.
    rewrite Ec in A3. injection A3 as <-. rewrite Hd in A5.
    split; [exact A4|]. rewrite A6 at 1.
    assert (w1t' = w1t) as ->; [|reflexivity].
    assert (X : w1_encode p (use_hint p h (map (w_approx rho t1 c z) (seq 0 (k p)))) = Ok w1t') by exact A5.
    rewrite Ew in X. injection X as <-. reflexivity.
Qed.
End Sig.
