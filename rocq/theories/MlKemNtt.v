(** The number theoretic transform of the ML-KEM model. *)
From Verif Require Export MlKemModel LatRing LatNtt.
From Coq Require Import Setoid Morphisms.
Local Open Scope Z_scope.

Lemma q_pos : 0 < q. Proof. reflexivity. Qed.
Lemma q_nz : q <> 0. Proof. discriminate. Qed.
Global Opaque q.

Ltac cgm := rewrite ?(cg_mod q _ q_nz).

Lemma ntt_step_Lin i le j : (0 < le)%nat -> (j + le < 256)%nat -> Lin q 256 (ntt_step i le j).
Proof.
  intros Hle Hj a b f g h (Lf & Lg & Lh & E). unfold ntt_step, comb.
  rewrite !upd_length. split; [auto|]. split; [auto|]. split; [auto|].
  intros c Hc.
  rewrite !nthz_upd by (rewrite ?upd_length; lia).
  destruct (Nat.eqb_spec j (j + le)); [lia|].
  destruct (Nat.eqb_spec c j) as [->|N].
  - cgm. rewrite (E j), (E (j + le)%nat) by lia. apply cg_of_eq. ring.
  - destruct (Nat.eqb_spec c (j + le)) as [->|N2].
    + cgm. rewrite (E j), (E (j + le)%nat) by lia. apply cg_of_eq. ring.
    + apply E. exact Hc.
Qed.

Lemma intt_step_Lin i le j : (0 < le)%nat -> (j + le < 256)%nat -> Lin q 256 (intt_step i le j).
Proof.
  intros Hle Hj a b f g h (Lf & Lg & Lh & E). unfold intt_step, comb.
  rewrite !upd_length. split; [auto|]. split; [auto|]. split; [auto|].
  intros c Hc.
  rewrite !nthz_upd by (rewrite ?upd_length; lia).
  destruct (Nat.eqb_spec (j + le) j); [lia|].
  destruct (Nat.eqb_spec c (j + le)) as [->|N].
  - cgm. rewrite (E j), (E (j + le)%nat) by lia. apply cg_of_eq. ring.
  - destruct (Nat.eqb_spec c j) as [->|N2].
    + cgm. rewrite (E j), (E (j + le)%nat) by lia. apply cg_of_eq. ring.
    + apply E. exact Hc.
Qed.

Lemma layer_bound le j l : In le l -> Forall (fun le => (0 < le)%nat /\ (2 * le * (Nat.div 256 (2 * le)) <= 256)%nat) l ->
  (j + le < 2 * le * Nat.div 256 (2 * le))%nat -> (0 < le)%nat /\ (j + le < 256)%nat.
Proof. intros Hin F H. rewrite Forall_forall in F. destruct (F _ Hin). lia. Qed.

Lemma ntt_Lin : Lin q 256 ntt.
Proof.
  unfold ntt. apply Lin_layers. intros i le j Hin Hj.
  destruct (layer_bound le j _ Hin) as [H1 H2]; [|exact Hj|apply ntt_step_Lin; assumption].
  repeat constructor.
Qed.

Lemma map_scale_Lin z : Lin q 256 (map (fun x => (x * z) mod q)).
Proof.
  intros a b f g h (Lf & Lg & Lh & E). unfold comb. rewrite !map_length.
  split; [auto|]. split; [auto|]. split; [auto|]. intros c Hc.
  rewrite !nthz_map by lia. cgm. rewrite (E c Hc). apply cg_of_eq. ring.
Qed.

Lemma ntt_inverse_Lin : Lin q 256 ntt_inverse.
Proof.
  unfold ntt_inverse.
  apply (Lin_comp q 256 (map (fun x => (x * 3303) mod q))); [apply map_scale_Lin|].
  apply Lin_layers. intros i le j Hin Hj.
  destruct (layer_bound le j _ Hin) as [H1 H2]; [|exact Hj|apply intt_step_Lin; assumption].
  repeat constructor.
Qed.

Lemma ntt_length f : length f = 256%nat -> length (ntt f) = 256%nat.
Proof. apply Lin_length with (q := q). apply ntt_Lin. Qed.
Lemma ntt_inverse_length f : length f = 256%nat -> length (ntt_inverse f) = 256%nat.
Proof. apply Lin_length with (q := q). apply ntt_inverse_Lin. Qed.

Lemma ntt_inverse_reduced f : reduced q (ntt_inverse f).
Proof.
  unfold ntt_inverse, reduced. apply Forall_map, Forall_forall. intros.
  apply Z.mod_pos_bound. exact q_pos.
Qed.

(** The coefficients stay reduced through the butterflies. *)
Lemma upd_reduced f j x : reduced q f -> 0 <= x < q -> reduced q (upd f j x).
Proof.
  unfold reduced. intro H. revert j. induction H as [|y f Hy Hf IH]; intros [|j] Hx; simpl; constructor; auto.
Qed.

Lemma layers_reduced step next les : (forall i le j f, reduced q f -> reduced q (step i le j f)) ->
  forall i f, reduced q f -> reduced q (layers step next les i f).
Proof.
  intro Hs.
  assert (Hb : forall i le n st f, reduced q f -> reduced q (block (step i le) st n f)).
  { unfold block. intros i le n. induction n; intros st f R; simpl; auto. }
  assert (Hbs : forall le n st i f, reduced q f -> reduced q (fst (blocks step next n st le i f))).
  { intros le. induction n; intros st i f R; simpl; auto. }
  induction les as [|le les IH]; intros i f R; cbn [layers]; [exact R|].
  pose proof (Hbs le (Nat.div 256 (2 * le)) 0%nat i f R) as X.
  destruct (blocks _ _ _ _ _ _ _) as [f' i']. apply IH. exact X.
Qed.

Lemma ntt_reduced f : reduced q f -> reduced q (ntt f).
Proof.
  apply layers_reduced. intros i le j f0 R. unfold ntt_step.
  apply upd_reduced; [apply upd_reduced; [exact R|]|]; apply Z.mod_pos_bound; exact q_pos.
Qed.

(** * Inverse and values on monomials, from the general transform *)
Lemma forallb_seq n (P : nat -> bool) : forallb P (seq 0 n) = true -> forall c, (c < n)%nat -> P c = true.
Proof. intros H c Hc. rewrite forallb_forall in H. apply H. apply in_seq. lia. Qed.

Definition zt (i : nat) : Z := nthz i zeta_ntt.

Lemma ntt_step_bf : butterfly q ntt_step (fun _ => 1) zt (fun _ => 1) (fun i => - zt i).
Proof.
  intros i le j f Hle Hj. unfold ntt_step, zt. rewrite !upd_length. split; [reflexivity|]. intros c Hc.
  rewrite !nthz_upd by (rewrite ?upd_length; lia).
  destruct (Nat.eqb_spec c j) as [->|N].
  - destruct (Nat.eqb_spec j (j + le)); [lia|]. cgm. apply cg_of_eq. ring.
  - destruct (Nat.eqb_spec c (j + le)); [|reflexivity]. cgm. apply cg_of_eq. ring.
Qed.
Lemma intt_step_bf : butterfly q intt_step (fun _ => 1) (fun _ => 1) (fun i => - zt i) zt.
Proof.
  intros i le j f Hle Hj. unfold intt_step, zt. rewrite !upd_length. split; [reflexivity|]. intros c Hc.
  rewrite !nthz_upd by (rewrite ?upd_length; lia).
  destruct (Nat.eqb_spec c j) as [->|N].
  - destruct (Nat.eqb_spec j (j + le)); [lia|]. cgm. apply cg_of_eq. ring.
  - destruct (Nat.eqb_spec c (j + le)); [|reflexivity]. destruct (Nat.eqb_spec (j + le) j); [lia|].
    cgm. apply cg_of_eq. ring.
Qed.

Lemma ntt_fwd f : ntt f = fwd ntt_step 7 f.
Proof.
  change (fwd ntt_step 7 f) with (fwd ntt_step (0 + 7) f). rewrite <- (layers_fwd ntt_step f 7 0 ltac:(lia)).
  change (map wid (seq 0 7)) with [128; 64; 32; 16; 8; 4; 2]%nat. reflexivity.
Qed.
Lemma intt_bwd f : ntt_inverse f = map (fun x => (x * 3303) mod q) (bwd intt_step 7 f).
Proof.
  rewrite <- (layers_bwd intt_step 7 ltac:(lia) f).
  change (map wid (rev (seq 0 7))) with [2; 4; 8; 16; 32; 64; 128]%nat. change (blk 7 - 1)%nat with 127%nat. reflexivity.
Qed.

(** Node [i] of the factor tree: X^w - root i. *)
Definition root (i : nat) : Z :=
  if Nat.eqb i 1 then -1 else if Nat.even i then zt (Nat.div2 i) else - zt (Nat.div2 i).

(** Checks of the tables, by evaluation. *)
Lemma zeta_inv_check :
  forallb (fun t => forallb (fun b => (zt (blk t + b) * zt (2 * blk t - 1 - b)) mod q =? (-1) mod q) (seq 0 (blk t))) (seq 0 7) = true.
Proof. vm_cast_no_check (eq_refl true). Qed.
Lemma zeta_sq_check : forallb (fun i => (zt (S i) * zt (S i)) mod q =? root (S i) mod q) (seq 0 127) = true.
Proof. vm_cast_no_check (eq_refl true). Qed.
Lemma zeta_mul_check : forallb (fun i => nthz i zeta_mul mod q =? root (128 + i) mod q) (seq 0 128) = true.
Proof. vm_cast_no_check (eq_refl true). Qed.

Lemma zeta_inv t b : (t < 7)%nat -> (b < blk t)%nat -> cg q (zt (blk t + b) * zt (2 * blk t - 1 - b)) (-1).
Proof.
  intros Ht Hb. pose proof (forallb_seq 7 _ zeta_inv_check t Ht) as E. cbv beta in E.
  apply (forallb_seq (blk t)) with (c := b) in E; [|exact Hb]. apply Z.eqb_eq in E. apply mod_eq_cg; [exact q_pos|exact E].
Qed.
Lemma root_l i : (1 <= i < blk 7)%nat -> cg q (root (2 * i)) (zt i).
Proof.
  intros [H _]. unfold root. destruct (Nat.eqb_spec (2 * i) 1); [lia|].
  rewrite Nat.even_mul. cbn [Nat.even orb]. rewrite Nat.div2_double. reflexivity.
Qed.
Lemma root_r i : (1 <= i < blk 7)%nat -> cg q (root (2 * i + 1)) (- zt i).
Proof.
  intros [H _]. unfold root. destruct (Nat.eqb_spec (2 * i + 1) 1); [lia|].
  rewrite Nat.even_add, Nat.even_mul. cbn [Nat.even orb Bool.eqb]. replace (2 * i + 1)%nat with (S (2 * i)) by lia.
  rewrite Nat.div2_succ_double. reflexivity.
Qed.
Lemma zeta_sq i : (1 <= i < blk 7)%nat -> cg q (zt i * zt i) (root i).
Proof.
  intros [H1 H2]. change (blk 7) with 128%nat in H2. destruct i as [|i]; [lia|].
  pose proof (forallb_seq 127 _ zeta_sq_check i ltac:(lia)) as E. cbv beta in E. apply Z.eqb_eq in E.
  apply mod_eq_cg; [exact q_pos|exact E].
Qed.
Lemma zeta_mul_root i : (i < 128)%nat -> cg q (nthz i zeta_mul) (root (128 + i)).
Proof.
  intro H. pose proof (forallb_seq 128 _ zeta_mul_check i H) as E. cbv beta in E. apply Z.eqb_eq in E.
  apply mod_eq_cg; [exact q_pos|exact E].
Qed.

Lemma scale_inverse f g : scaled q (2 ^ Z.of_nat 7) f g -> veq q 256 (map (fun x => (x * 3303) mod q) f) g.
Proof.
  intros (Lf & Lg & E). split; [rewrite map_length; exact Lf|]. split; [exact Lg|]. intros c Hc.
  rewrite nthz_map by lia. cgm. rewrite (E c Hc).
  transitivity ((2 ^ Z.of_nat 7 * 3303) * nthz c g); [apply cg_of_eq; ring|].
  assert (O : cg q (2 ^ Z.of_nat 7 * 3303) 1) by (exists 127; reflexivity).
  rewrite O. apply cg_of_eq. ring.
Qed.

Lemma intt_ntt f : length f = 256%nat -> veq q 256 (ntt_inverse (ntt f)) f.
Proof.
  intro L. rewrite ntt_fwd, intt_bwd. apply scale_inverse.
  apply (bwd_fwd q zt ntt_step intt_step ntt_step_bf intt_step_bf 7 ltac:(lia) zeta_inv 7); [lia|exact L].
Qed.

Lemma ntt_intt f : length f = 256%nat -> veq q 256 (ntt (ntt_inverse f)) f.
Proof.
  intro L. pose proof (fwd_bwd q zt ntt_step intt_step ntt_step_bf intt_step_bf 7 ltac:(lia) zeta_inv 7 f ltac:(lia) L) as S.
  rewrite <- ntt_fwd in S.
  assert (Lb : length (bwd intt_step 7 f) = 256%nat).
  { apply (Lin_length q 256 (bwd intt_step 7)); [|exact L]. apply (bwd_Lin q zt intt_step intt_step_bf 7); lia. }
  rewrite intt_bwd. revert S Lb. generalize (bwd intt_step 7 f). intros b S Lb.
  apply (veq_trans q 256 _ (map (fun x => (x * 3303) mod q) (ntt b))).
  - destruct (ntt_Lin 3303 0 b b (map (fun x => (x * 3303) mod q) b)) as (L1 & _ & L2 & C).
    + split; [exact Lb|]. split; [exact Lb|]. split; [rewrite map_length; exact Lb|].
      intros j Hj. rewrite nthz_map by lia. cgm. apply cg_of_eq. ring.
    + split; [exact L2|]. split; [rewrite map_length; exact L1|]. intros j Hj. rewrite (C j Hj).
      rewrite nthz_map by lia. cgm. generalize (nthz j (ntt b)). intro x. apply cg_of_eq. ring.
  - apply scale_inverse. exact S.
Qed.

Lemma intt_ntt_eq f : poly q 256 f -> ntt_inverse (ntt f) = f.
Proof.
  intros [L R]. apply (veq_reduced_eq q 256); [exact q_pos| | |exact R].
  - apply intt_ntt. exact L.
  - apply ntt_inverse_reduced.
Qed.

Lemma ntt_intt_eq f : poly q 256 f -> ntt (ntt_inverse f) = f.
Proof.
  intros [L R]. apply (veq_reduced_eq q 256); [exact q_pos| | |exact R].
  - apply ntt_intt. exact L.
  - apply ntt_reduced, ntt_inverse_reduced.
Qed.

(** * Multiplication *)
Lemma multiply_ntts_length f g : length (multiply_ntts f g) = 256%nat.
Proof. unfold multiply_ntts, base_case_multiply. apply flat_map2_length. Qed.

Lemma split2 c : c = (2 * Nat.div c 2 + Nat.modulo c 2)%nat /\ (Nat.modulo c 2 < 2)%nat.
Proof. split; [apply Nat.div_mod; lia|apply Nat.mod_upper_bound; lia]. Qed.

Lemma multiply_ntts_nth f g i b : (i < 128)%nat -> (b < 2)%nat ->
  nthz (2 * i + b) (multiply_ntts f g) =
  if Nat.eqb b 0
  then (nthz (2 * i + 0) f * nthz (2 * i + 0) g + nthz (2 * i + 1) f * nthz (2 * i + 1) g * nthz i zeta_mul) mod q
  else (nthz (2 * i + 0) f * nthz (2 * i + 1) g + nthz (2 * i + 1) f * nthz (2 * i + 0) g) mod q.
Proof.
  intros Hi Hb. rewrite !Nat.add_0_r. unfold multiply_ntts, base_case_multiply. rewrite nthz_flat_map2 by assumption. reflexivity.
Qed.

Lemma multiply_ntts_reduced f g : reduced q (multiply_ntts f g).
Proof.
  apply Forall_forall. intros x Hx. unfold multiply_ntts in Hx. apply in_flat_map in Hx as (i & _ & Hx).
  simpl in Hx. destruct Hx as [<-|[<-|[]]]; apply Z.mod_pos_bound; exact q_pos.
Qed.

Lemma multiply_ntts_Lin_l g : Lin q 256 (fun f => multiply_ntts f g).
Proof.
  intros a b f1 f2 h (L1 & L2 & L3 & E). unfold comb. rewrite !multiply_ntts_length.
  split; [auto|]. split; [auto|]. split; [auto|]. intros c Hc.
  destruct (split2 c) as [Ec Hb]. set (i := Nat.div c 2) in *. set (r := Nat.modulo c 2) in *.
  assert (Hi : (i < 128)%nat) by lia. rewrite Ec.
  rewrite !multiply_ntts_nth by assumption.
  destruct (Nat.eqb r 0); cgm; rewrite (E (2 * i + 0)%nat), (E (2 * i + 1)%nat) by lia; apply cg_of_eq; ring.
Qed.

Lemma multiply_ntts_Lin_r f : Lin q 256 (fun g => multiply_ntts f g).
Proof.
  intros a b f1 f2 h (L1 & L2 & L3 & E). unfold comb. rewrite !multiply_ntts_length.
  split; [auto|]. split; [auto|]. split; [auto|]. intros c Hc.
  destruct (split2 c) as [Ec Hb]. set (i := Nat.div c 2) in *. set (r := Nat.modulo c 2) in *.
  assert (Hi : (i < 128)%nat) by lia. rewrite Ec.
  rewrite !multiply_ntts_nth by assumption.
  destruct (Nat.eqb r 0); cgm; rewrite (E (2 * i + 0)%nat), (E (2 * i + 1)%nat) by lia; apply cg_of_eq; ring.
Qed.

(** The transform of a monomial, pointwise: in the i-th factor
    Z_q[X]/(X^2 - gamma_i) it is gamma_i^(c/2) X^(c mod 2). *)
Lemma ntt_unit_nth c i b : (c < 256)%nat -> (i < 128)%nat -> (b < 2)%nat ->
  cg q (nthz (2 * i + b) (ntt (unit_vec 256 c)))
       (if Nat.eqb b (Nat.modulo c 2) then nthz i zeta_mul ^ Z.of_nat (Nat.div c 2) else 0).
Proof.
  intros Hc Hi Hb. rewrite ntt_fwd.
  pose proof (fwd_unit q zt ntt_step ntt_step_bf 7 ltac:(lia) root root_l root_r zeta_sq c Hc 7 ltac:(lia) i b Hi Hb) as E.
  change (wd 7) with 2%nat in E. rewrite E. destruct (Nat.eqb b (Nat.modulo c 2)); [|reflexivity].
  apply cg_pow. symmetry. apply (zeta_mul_root i Hi).
Qed.

Lemma gamma_pow i : (i < 128)%nat -> cg q (nthz i zeta_mul ^ 128) (-1).
Proof.
  intro Hi. change 128 with (Z.of_nat (blk 7)). rewrite (cg_pow q _ _ _ (zeta_mul_root i Hi)).
  apply (root_pow q zt 7 root); [reflexivity|exact root_l|exact root_r|exact zeta_sq|lia|exact Hi].
Qed.

Lemma monomial_cases g A0 A1 B0 B1 a b ra rb r : (ra < 2)%nat -> (rb < 2)%nat -> (r < 2)%nat ->
  cg q A0 (if Nat.eqb 0 ra then g ^ Z.of_nat a else 0) ->
  cg q A1 (if Nat.eqb 1 ra then g ^ Z.of_nat a else 0) ->
  cg q B0 (if Nat.eqb 0 rb then g ^ Z.of_nat b else 0) ->
  cg q B1 (if Nat.eqb 1 rb then g ^ Z.of_nat b else 0) ->
  cg q (if Nat.eqb r 0 then (A0 * B0 + A1 * B1 * g) mod q else (A0 * B1 + A1 * B0) mod q)
       (if Nat.eqb r (Nat.modulo (ra + rb) 2) then g ^ Z.of_nat (a + b + Nat.div (ra + rb) 2) else 0).
Proof.
  intros Hra Hrb Hr HA0 HA1 HB0 HB1.
  destruct ra as [|[|ra]]; [| |lia]; destruct rb as [|[|rb]]; try lia; destruct r as [|[|r]]; try lia;
    cbn [Nat.eqb] in *; cgm; rewrite HA0, HA1, HB0, HB1;
    match goal with |- context [Nat.modulo ?x 2] => let y := eval compute in (Nat.modulo x 2) in
      change (Nat.modulo x 2) with y end;
    match goal with |- context [Nat.div ?x 2] => let y := eval compute in (Nat.div x 2) in
      change (Nat.div x 2) with y | _ => idtac end;
    cbn [Nat.eqb]; rewrite ?Nat2Z.inj_add, ?Z.pow_add_r by lia;
    change (Z.of_nat 0) with 0; change (Z.of_nat 1) with 1;
    rewrite ?Z.pow_0_r, ?Z.pow_1_r; apply cg_of_eq; ring.
Qed.

Lemma ntt_monomials a b : (a < 256)%nat -> (b < 256)%nat -> forall c, (c < 256)%nat ->
  cg q (nthz c (multiply_ntts (ntt (unit_vec 256 a)) (ntt (unit_vec 256 b))))
       (if (a + b <? 256)%nat then nthz c (ntt (unit_vec 256 (a + b)))
        else - nthz c (ntt (unit_vec 256 (a + b - 256)))).
Proof.
  intros Ha Hb c Hc. destruct (split2 c) as [Ec Hr]. set (i := Nat.div c 2) in *. set (r := Nat.modulo c 2) in *.
  assert (Hi : (i < 128)%nat) by lia. rewrite Ec.
  rewrite multiply_ntts_nth by assumption.
  set (X := if (a + b <? 256)%nat then _ else _).
  assert (EX : cg q X (if Nat.eqb r (Nat.modulo (a + b) 2) then nthz i zeta_mul ^ Z.of_nat (Nat.div (a + b) 2) else 0)).
  { unfold X. destruct (Nat.ltb_spec (a + b) 256) as [L|L].
    - apply ntt_unit_nth; assumption.
    - rewrite ntt_unit_nth by (assumption || lia).
      assert (M : Nat.modulo (a + b - 256) 2 = Nat.modulo (a + b) 2).
      { replace (a + b)%nat with ((a + b - 256) + 128 * 2)%nat at 2 by lia. rewrite Nat.mod_add by lia. reflexivity. }
      assert (D : Nat.div (a + b) 2 = (Nat.div (a + b - 256) 2 + 128)%nat).
      { replace (a + b)%nat with ((a + b - 256) + 128 * 2)%nat at 1 by lia. rewrite Nat.div_add by lia. reflexivity. }
      rewrite M, D. destruct (Nat.eqb r (Nat.modulo (a + b) 2)); [|apply cg_of_eq; ring].
      rewrite Nat2Z.inj_add, Z.pow_add_r by lia. change (Z.of_nat 128) with 128.
      rewrite (gamma_pow i Hi). apply cg_of_eq. ring. }
  rewrite EX. clear X EX.
  destruct (split2 a) as [Ea Hra]. destruct (split2 b) as [Eb Hrb].
  set (a' := Nat.div a 2) in *. set (ra := Nat.modulo a 2) in *.
  set (b' := Nat.div b 2) in *. set (rb := Nat.modulo b 2) in *.
  assert (Dab : Nat.div (a + b) 2 = (a' + b' + Nat.div (ra + rb) 2)%nat).
  { rewrite Ea, Eb. replace (2 * a' + ra + (2 * b' + rb))%nat with ((ra + rb) + (a' + b') * 2)%nat by lia.
    rewrite Nat.div_add by lia. lia. }
  assert (Mab : Nat.modulo (a + b) 2 = Nat.modulo (ra + rb) 2).
  { rewrite Ea, Eb. replace (2 * a' + ra + (2 * b' + rb))%nat with ((ra + rb) + (a' + b') * 2)%nat by lia.
    rewrite Nat.mod_add by lia. reflexivity. }
  rewrite Dab, Mab.
  assert (NA : forall s, (s < 2)%nat -> cg q (nthz (2 * i + s) (ntt (unit_vec 256 a)))
             (if Nat.eqb s ra then nthz i zeta_mul ^ Z.of_nat a' else 0)) by (intros; apply ntt_unit_nth; assumption).
  assert (NB : forall s, (s < 2)%nat -> cg q (nthz (2 * i + s) (ntt (unit_vec 256 b)))
             (if Nat.eqb s rb then nthz i zeta_mul ^ Z.of_nat b' else 0)) by (intros; apply ntt_unit_nth; assumption).
  pose proof (NA 0%nat ltac:(lia)) as NA0. pose proof (NA 1%nat ltac:(lia)) as NA1.
  pose proof (NB 0%nat ltac:(lia)) as NB0. pose proof (NB 1%nat ltac:(lia)) as NB1.
  clear NA NB Dab Mab. revert NA0 NA1 NB0 NB1.
  generalize (nthz (2 * i + 0) (ntt (unit_vec 256 a))). generalize (nthz (2 * i + 1) (ntt (unit_vec 256 a))).
  generalize (nthz (2 * i + 0) (ntt (unit_vec 256 b))). generalize (nthz (2 * i + 1) (ntt (unit_vec 256 b))).
  generalize (nthz i zeta_mul). intros g B1 B0 A1 A0.
  apply monomial_cases; assumption.
Qed.

Lemma ntt_mul f g : length f = 256%nat -> length g = 256%nat ->
  veq q 256 (multiply_ntts (ntt f) (ntt g)) (ntt (ring_mul q 256 f g)).
Proof.
  apply (transform_mul q q_pos 256 ntt multiply_ntts).
  - apply ntt_Lin.
  - apply multiply_ntts_Lin_l.
  - apply multiply_ntts_Lin_r.
  - apply ntt_monomials.
Qed.

Lemma intt_mul f g : length f = 256%nat -> length g = 256%nat ->
  ntt_inverse (multiply_ntts (ntt f) (ntt g)) = ring_mul q 256 f g.
Proof.
  intros Lf Lg. apply (veq_reduced_eq q 256); [exact q_pos| | |].
  - apply (veq_trans q 256 _ (ntt_inverse (ntt (ring_mul q 256 f g)))).
    + apply Lin_cong; [apply ntt_inverse_Lin|]. apply ntt_mul; assumption.
    + apply intt_ntt. apply ring_mul_length.
  - apply ntt_inverse_reduced.
  - apply ring_mul_reduced. exact q_pos.
Qed.
