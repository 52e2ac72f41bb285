(** The number theoretic transform of the ML-DSA model. *)
From Verif Require Export MlDsaModel LatRing LatNtt.
From Coq Require Import Setoid Morphisms.
Local Open Scope Z_scope.

Lemma q_pos : 0 < q. Proof. reflexivity. Qed.
Lemma q_nz : q <> 0. Proof. discriminate. Qed.
Lemma q_val : q = 8380417. Proof. reflexivity. Qed.
Global Opaque q.

Ltac cgm := rewrite ?(cg_mod q _ q_nz).

Definition zt (i : nat) : Z := nthz i zetas.

Lemma ntt_step_bf : butterfly q ntt_step (fun _ => 1) zt (fun _ => 1) (fun i => - zt i).
Proof.
  intros i le j f Hle Hj. unfold ntt_step, zt. rewrite !upd_length. split; [reflexivity|]. intros c Hc.
  rewrite !nthz_upd by (rewrite ?upd_length; lia).
  destruct (Nat.eqb_spec c j) as [->|N].
  - destruct (Nat.eqb_spec j (j + le)); [lia|]. cgm. apply cg_of_eq. ring.
  - destruct (Nat.eqb_spec c (j + le)); [|reflexivity]. cgm. apply cg_of_eq. ring.
Qed.
Lemma intt_step_bf : butterfly q intt_step (fun _ => 1) (fun _ => 1) (fun i => - zt i) zt.
Proof.
  intros i le j f Hle Hj. unfold intt_step, zt. rewrite !upd_length. split; [reflexivity|]. intros c Hc.
  rewrite !nthz_upd by (rewrite ?upd_length; lia). rewrite !Nat.eqb_refl.
  destruct (Nat.eqb_spec (j + le) j); [lia|].
  destruct (Nat.eqb_spec c j) as [->|N].
  - destruct (Nat.eqb_spec j (j + le)); [lia|]. cgm. apply cg_of_eq. ring.
  - destruct (Nat.eqb_spec c (j + le)); [|reflexivity]. cgm. apply cg_of_eq. ring.
Qed.

Lemma ntt_fwd f : ntt f = fwd ntt_step 8 f.
Proof.
  change (fwd ntt_step 8 f) with (fwd ntt_step (0 + 8) f). rewrite <- (layers_fwd ntt_step f 8 0 ltac:(lia)).
  change (map wid (seq 0 8)) with [128; 64; 32; 16; 8; 4; 2; 1]%nat. reflexivity.
Qed.
Definition iscale (f : list Z) : list Z := map (fun x => (8347681 * x) mod q) f.
Lemma intt_bwd f : ntt_inverse f = iscale (bwd intt_step 8 f).
Proof.
  unfold ntt_inverse, iscale. rewrite <- (layers_bwd intt_step 8 ltac:(lia) f).
  change (map wid (rev (seq 0 8))) with [1; 2; 4; 8; 16; 32; 64; 128]%nat. change (blk 8 - 1)%nat with 255%nat. reflexivity.
Qed.

Lemma iscale_Lin : Lin q 256 iscale.
Proof.
  intros a b f g h (Lf & Lg & Lh & E). unfold comb, iscale. rewrite !map_length.
  split; [auto|]. split; [auto|]. split; [auto|]. intros c Hc.
  rewrite !nthz_map by lia. cgm. rewrite (E c Hc). apply cg_of_eq. ring.
Qed.

Lemma ntt_Lin : Lin q 256 ntt.
Proof.
  apply (Lin_ext q 256 (fwd ntt_step 8)); [intro; symmetry; apply ntt_fwd|].
  apply (fwd_Lin q zt ntt_step ntt_step_bf 8); lia.
Qed.
Lemma ntt_inverse_Lin : Lin q 256 ntt_inverse.
Proof.
  apply (Lin_ext q 256 (fun f => iscale (bwd intt_step 8 f))); [intro; symmetry; apply intt_bwd|].
  apply (Lin_comp q 256 iscale); [apply iscale_Lin|].
  apply (bwd_Lin q zt intt_step intt_step_bf 8); lia.
Qed.

Lemma ntt_length f : length f = 256%nat -> length (ntt f) = 256%nat.
Proof. apply Lin_length with (q := q). apply ntt_Lin. Qed.
Lemma ntt_inverse_length f : length f = 256%nat -> length (ntt_inverse f) = 256%nat.
Proof. apply Lin_length with (q := q). apply ntt_inverse_Lin. Qed.

Lemma ntt_inverse_reduced f : reduced q (ntt_inverse f).
Proof.
  unfold ntt_inverse, reduced. apply Forall_map, Forall_forall. intros.
  apply Z.mod_pos_bound. exact q_pos.
Qed.

Lemma upd_reduced f j x : reduced q f -> 0 <= x < q -> reduced q (upd f j x).
Proof.
  unfold reduced. intro H. revert j. induction H as [|y f Hy Hf IH]; intros [|j] Hx; simpl; constructor; auto.
Qed.

Lemma layers_reduced step next les : (forall i le j f, reduced q f -> reduced q (step i le j f)) ->
  forall i f, reduced q f -> reduced q (layers step next les i f).
Proof.
  intro Hs.
  assert (Hb : forall i le n st f, reduced q f -> reduced q (block (step i le) st n f)).
  { unfold block. intros i le n. induction n; intros st f R; simpl; auto. }
  assert (Hbs : forall le n st i f, reduced q f -> reduced q (fst (blocks step next n st le i f))).
  { intros le. induction n; intros st i f R; simpl; auto. }
  induction les as [|le les IH]; intros i f R; cbn [layers]; [exact R|].
  pose proof (Hbs le (Nat.div 256 (2 * le)) 0%nat i f R) as X.
  destruct (blocks _ _ _ _ _ _ _) as [f' i']. apply IH. exact X.
Qed.

Lemma ntt_reduced f : reduced q f -> reduced q (ntt f).
Proof.
  apply layers_reduced. intros i le j f0 R. unfold ntt_step.
  apply upd_reduced; [apply upd_reduced; [exact R|]|]; apply Z.mod_pos_bound; exact q_pos.
Qed.

Lemma forallb_seq n (P : nat -> bool) : forallb P (seq 0 n) = true -> forall c, (c < n)%nat -> P c = true.
Proof. intros H c Hc. rewrite forallb_forall in H. apply H. apply in_seq. lia. Qed.

(** Node [i] of the factor tree: X^w - root i. *)
Definition root (i : nat) : Z :=
  if Nat.eqb i 1 then -1 else if Nat.even i then zt (Nat.div2 i) else - zt (Nat.div2 i).

(** Checks of the table, by evaluation. *)
Lemma zeta_inv_check :
  forallb (fun t => forallb (fun b => (zt (blk t + b) * zt (2 * blk t - 1 - b)) mod q =? (-1) mod q) (seq 0 (blk t))) (seq 0 8) = true.
Proof. vm_cast_no_check (eq_refl true). Qed.
Lemma zeta_sq_check : forallb (fun i => (zt (S i) * zt (S i)) mod q =? root (S i) mod q) (seq 0 255) = true.
Proof. vm_cast_no_check (eq_refl true). Qed.

Lemma zeta_inv t b : (t < 8)%nat -> (b < blk t)%nat -> cg q (zt (blk t + b) * zt (2 * blk t - 1 - b)) (-1).
Proof.
  intros Ht Hb. pose proof (forallb_seq 8 _ zeta_inv_check t Ht) as E. cbv beta in E.
  apply (forallb_seq (blk t)) with (c := b) in E; [|exact Hb]. apply Z.eqb_eq in E. apply mod_eq_cg; [exact q_pos|exact E].
Qed.
Lemma root_l i : (1 <= i < blk 8)%nat -> cg q (root (2 * i)) (zt i).
Proof.
  intros [H _]. unfold root. destruct (Nat.eqb_spec (2 * i) 1); [lia|].
  rewrite Nat.even_mul. cbn [Nat.even orb]. rewrite Nat.div2_double. reflexivity.
Qed.
Lemma root_r i : (1 <= i < blk 8)%nat -> cg q (root (2 * i + 1)) (- zt i).
Proof.
  intros [H _]. unfold root. destruct (Nat.eqb_spec (2 * i + 1) 1); [lia|].
  rewrite Nat.even_add, Nat.even_mul. cbn [Nat.even orb Bool.eqb]. replace (2 * i + 1)%nat with (S (2 * i)) by lia.
  rewrite Nat.div2_succ_double. reflexivity.
Qed.
Lemma zeta_sq i : (1 <= i < blk 8)%nat -> cg q (zt i * zt i) (root i).
Proof.
  intros [H1 H2]. change (blk 8) with 256%nat in H2. destruct i as [|i]; [lia|].
  pose proof (forallb_seq 255 _ zeta_sq_check i ltac:(lia)) as E. cbv beta in E. apply Z.eqb_eq in E.
  apply mod_eq_cg; [exact q_pos|exact E].
Qed.

Lemma scale_inverse f g : scaled q (2 ^ Z.of_nat 8) f g -> veq q 256 (iscale f) g.
Proof.
  intros (Lf & Lg & E). unfold iscale. split; [rewrite map_length; exact Lf|]. split; [exact Lg|]. intros c Hc.
  rewrite nthz_map by lia. cgm. rewrite (E c Hc).
  transitivity ((8347681 * 2 ^ Z.of_nat 8) * nthz c g); [apply cg_of_eq; ring|].
  assert (O : cg q (8347681 * 2 ^ Z.of_nat 8) 1) by (exists 255; reflexivity).
  rewrite O. apply cg_of_eq. ring.
Qed.

Lemma intt_ntt f : length f = 256%nat -> veq q 256 (ntt_inverse (ntt f)) f.
Proof.
  intro L. rewrite ntt_fwd, intt_bwd. apply scale_inverse.
  apply (bwd_fwd q zt ntt_step intt_step ntt_step_bf intt_step_bf 8 ltac:(lia) zeta_inv 8); [lia|exact L].
Qed.

Lemma ntt_intt f : length f = 256%nat -> veq q 256 (ntt (ntt_inverse f)) f.
Proof.
  intro L. pose proof (fwd_bwd q zt ntt_step intt_step ntt_step_bf intt_step_bf 8 ltac:(lia) zeta_inv 8 f ltac:(lia) L) as S.
  rewrite <- ntt_fwd in S.
  assert (Lb : length (bwd intt_step 8 f) = 256%nat).
  { apply (Lin_length q 256 (bwd intt_step 8)); [|exact L]. apply (bwd_Lin q zt intt_step intt_step_bf 8); lia. }
  rewrite intt_bwd. revert S Lb. generalize (bwd intt_step 8 f). intros b S Lb.
  apply (veq_trans q 256 _ (iscale (ntt b))).
  - unfold iscale. destruct (ntt_Lin 8347681 0 b b (map (fun x => (8347681 * x) mod q) b)) as (L1 & _ & L2 & C).
    + split; [exact Lb|]. split; [exact Lb|]. split; [rewrite map_length; exact Lb|].
      intros j Hj. rewrite nthz_map by lia. cgm. apply cg_of_eq. ring.
    + split; [exact L2|]. split; [rewrite map_length; exact L1|]. intros j Hj. rewrite (C j Hj).
      rewrite nthz_map by lia. cgm. generalize (nthz j (ntt b)). intro x. apply cg_of_eq. ring.
  - apply scale_inverse. exact S.
Qed.

Lemma intt_ntt_eq f : poly q 256 f -> ntt_inverse (ntt f) = f.
Proof.
  intros [L R]. apply (veq_reduced_eq q 256); [exact q_pos| | |exact R].
  - apply intt_ntt. exact L.
  - apply ntt_inverse_reduced.
Qed.

Lemma ntt_intt_eq f : poly q 256 f -> ntt (ntt_inverse f) = f.
Proof.
  intros [L R]. apply (veq_reduced_eq q 256); [exact q_pos| | |exact R].
  - apply ntt_intt. exact L.
  - apply ntt_reduced, ntt_inverse_reduced.
Qed.

(** * Multiplication *)
Lemma mul_ntt_length f g : length (mul_ntt f g) = 256%nat.
Proof. unfold mul_ntt. rewrite map_length, seq_length. reflexivity. Qed.
Lemma mul_ntt_nth f g c : (c < 256)%nat -> nthz c (mul_ntt f g) = (nthz c f * nthz c g) mod q.
Proof. intro H. unfold mul_ntt. apply (nthz_map_seq (fun i => (nthz i f * nthz i g) mod q)). exact H. Qed.
Lemma mul_ntt_reduced f g : reduced q (mul_ntt f g).
Proof. apply Forall_map, Forall_forall. intros. apply Z.mod_pos_bound. exact q_pos. Qed.

Lemma mul_ntt_Lin_l g : Lin q 256 (fun f => mul_ntt f g).
Proof.
  intros a b f1 f2 h (L1 & L2 & L3 & E). unfold comb. rewrite !mul_ntt_length.
  split; [auto|]. split; [auto|]. split; [auto|]. intros c Hc.
  rewrite !mul_ntt_nth by exact Hc. cgm. rewrite (E c Hc). apply cg_of_eq. ring.
Qed.
Lemma mul_ntt_Lin_r f : Lin q 256 (fun g => mul_ntt f g).
Proof.
  intros a b f1 f2 h (L1 & L2 & L3 & E). unfold comb. rewrite !mul_ntt_length.
  split; [auto|]. split; [auto|]. split; [auto|]. intros c Hc.
  rewrite !mul_ntt_nth by exact Hc. cgm. rewrite (E c Hc). apply cg_of_eq. ring.
Qed.

(** The transform of X^c at leaf [i]: the evaluation at root (256+i). *)
Lemma ntt_unit_nth c i : (c < 256)%nat -> (i < 256)%nat ->
  cg q (nthz i (ntt (unit_vec 256 c))) (root (256 + i) ^ Z.of_nat c).
Proof.
  intros Hc Hi. rewrite ntt_fwd.
  pose proof (fwd_unit q zt ntt_step ntt_step_bf 8 ltac:(lia) root root_l root_r zeta_sq c Hc 8 ltac:(lia) i 0%nat Hi) as E.
  change (wd 8) with 1%nat in E. specialize (E ltac:(lia)).
  rewrite Nat.mul_1_l, Nat.add_0_r in E || rewrite Nat.mul_1_r, Nat.add_0_r in E. rewrite E.
  rewrite Nat.mod_1_r, Nat.div_1_r, Nat.eqb_refl. reflexivity.
Qed.

Lemma root_pow256 i : (i < 256)%nat -> cg q (root (256 + i) ^ 256) (-1).
Proof.
  intro Hi. change (root (256 + i) ^ 256) with (root (256 + i) ^ Z.of_nat (blk 8)).
  apply (root_pow q zt 8 root); [reflexivity|exact root_l|exact root_r|exact zeta_sq|lia|exact Hi].
Qed.

Lemma ntt_monomials a b : (a < 256)%nat -> (b < 256)%nat -> forall c, (c < 256)%nat ->
  cg q (nthz c (mul_ntt (ntt (unit_vec 256 a)) (ntt (unit_vec 256 b))))
       (if (a + b <? 256)%nat then nthz c (ntt (unit_vec 256 (a + b)))
        else - nthz c (ntt (unit_vec 256 (a + b - 256)))).
Proof.
  intros Ha Hb c Hc. rewrite mul_ntt_nth by exact Hc. cgm.
  rewrite (ntt_unit_nth a c Ha Hc), (ntt_unit_nth b c Hb Hc), <- Z.pow_add_r by lia.
  destruct (Nat.ltb_spec (a + b) 256) as [L|L].
  - rewrite (ntt_unit_nth (a + b) c L Hc), Nat2Z.inj_add. reflexivity.
  - rewrite (ntt_unit_nth (a + b - 256) c) by lia.
    replace (Z.of_nat a + Z.of_nat b) with (256 + Z.of_nat (a + b - 256)) by lia.
    rewrite Z.pow_add_r by lia. rewrite (root_pow256 c Hc). apply cg_of_eq. ring.
Qed.

Lemma ntt_mul f g : length f = 256%nat -> length g = 256%nat ->
  veq q 256 (mul_ntt (ntt f) (ntt g)) (ntt (ring_mul q 256 f g)).
Proof.
  apply (transform_mul q q_pos 256 ntt mul_ntt).
  - apply ntt_Lin.
  - apply mul_ntt_Lin_l.
  - apply mul_ntt_Lin_r.
  - apply ntt_monomials.
Qed.

Lemma intt_mul f g : length f = 256%nat -> length g = 256%nat ->
  ntt_inverse (mul_ntt (ntt f) (ntt g)) = ring_mul q 256 f g.
Proof.
  intros Lf Lg. apply (veq_reduced_eq q 256); [exact q_pos| | |].
  - apply (veq_trans q 256 _ (ntt_inverse (ntt (ring_mul q 256 f g)))).
    + apply Lin_cong; [apply ntt_inverse_Lin|]. apply ntt_mul; assumption.
    + apply intt_ntt. apply ring_mul_length.
  - apply ntt_inverse_reduced.
  - apply ring_mul_reduced. exact q_pos.
Qed.
