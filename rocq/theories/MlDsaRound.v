(** Rounding functions of the ML-DSA model. *)
From Verif Require Export MlDsaHint.
Local Open Scope Z_scope.

Lemma modpm_spec m a : 0 < a -> centred_residue a m (modpm m a).
Proof.
  intro H. unfold modpm, centred_residue.
  pose proof (Z.mod_pos_bound (a / 2 - m) a H). pose proof (Z.div_mod a 2 ltac:(lia)). pose proof (Z.mod_pos_bound a 2 ltac:(lia)).
  split; [|lia]. exists (- ((a / 2 - m) / a)). pose proof (Z.div_mod (a / 2 - m) a ltac:(lia)).
  set (x := (a / 2 - m) / a) in *. set (y := (a / 2 - m) mod a) in *.
  replace (- x * a) with (- (a * x)) by ring. lia.
Qed.

Lemma centred_unique a m r r' : 0 < a -> centred_residue a m r -> centred_residue a m r' -> r = r'.
Proof. intros Ha ((t & ->) & H) ((t' & E) & H'). assert (t = t') by nia. subst. lia. Qed.

Lemma modpm_eq m a r : 0 < a -> centred_residue a m r -> modpm m a = r.
Proof. intros Ha H. apply (centred_unique a m); [exact Ha|apply modpm_spec; exact Ha|exact H]. Qed.

(** * power2round *)
Lemma power2round_spec r r1 r0 : power2round1 13 r = (r1, r0) ->
  r mod q = r1 * 2 ^ 13 + r0 /\ centred_residue (2 ^ 13) (r mod q) r0 /\ 0 <= r1 < 2 ^ 10.
Proof.
  unfold power2round1. rewrite Z.shiftl_1_l, Z.shiftr_div_pow2 by lia. change (2 ^ Z.of_nat 13) with 8192.
  pose proof (Z.mod_pos_bound r q q_pos) as B. revert B. generalize (r mod q). intros rp B. rewrite q_val in B.
  destruct (modpm_spec rp 8192 ltac:(lia)) as ((t & E) & H). intros [= <- <-].
  change (2 ^ 13) with 8192. change (2 ^ 10) with 1024. set (r0 := modpm rp 8192) in *.
  replace (rp - r0) with (t * 8192) by lia. rewrite Z.div_mul by lia.
  split; [lia|]. split; [split; [exists t; exact E|exact H]|]. lia.
Qed.

(** * decompose *)
Definition good_gam2 (g : Z) : Prop := g = 95232 \/ g = 261888.

Definition decomposed (g r r1 r0 : Z) : Prop :=
  (exists t, r = r1 * (2 * g) + r0 + t * q) /\ 0 <= r1 < (q - 1) / (2 * g) /\
  (- g < r0 <= g \/ r1 = 0 /\ r0 = - g).

Lemma decompose_spec g r : good_gam2 g -> decomposed g r (fst (decompose g r)) (snd (decompose g r)).
Proof.
  intro Hg. unfold decompose, decomposed.
  pose proof (Z.mod_pos_bound r q q_pos) as B. pose proof (Z.div_mod r q q_nz) as D.
  set (rp := r mod q) in *. set (rq := r / q) in *. clearbody rp rq. subst r.
  destruct (modpm_spec rp (2 * g)) as ((t & E) & H); [destruct Hg; lia|]. set (r0 := modpm rp (2 * g)) in *. clearbody r0.
  rewrite q_val in *.
  destruct (Z.eqb_spec (rp - r0) (8380417 - 1)) as [C|C]; cbn [fst snd].
  - split; [exists (rq + 1); lia|]. destruct Hg as [->| ->].
    + change ((8380417 - 1) / (2 * 95232)) with 44. lia.
    + change ((8380417 - 1) / (2 * 261888)) with 16. lia.
  - replace (rp - r0) with (t * (2 * g)) in * by lia. rewrite Z.div_mul by (destruct Hg; lia).
    split; [exists rq; lia|]. destruct Hg as [->| ->].
    + change ((8380417 - 1) / (2 * 95232)) with 44. lia.
    + change ((8380417 - 1) / (2 * 261888)) with 16. lia.
Qed.

Lemma decomposed_unique g r r1 r0 r1' r0' : good_gam2 g -> decomposed g r r1 r0 -> decomposed g r r1' r0' ->
  r1 = r1' /\ r0 = r0'.
Proof.
  intros Hg ((t & E) & B & C) ((t' & E') & B' & C'). rewrite E in E'. clear E. rewrite q_val in *.
  destruct Hg as [->| ->].
  - change ((8380417 - 1) / (2 * 95232)) with 44 in *. lia.
  - change ((8380417 - 1) / (2 * 261888)) with 16 in *. lia.
Qed.

Lemma decompose_cg g r r' : cg q r r' -> decompose g r = decompose g r'.
Proof. intro H. unfold decompose. rewrite (cg_eq_mod q r r' q_pos H). reflexivity. Qed.

(** * Hints *)
Lemma use_make_hint g r v z : good_gam2 g -> cg q v (r + z) -> small q g z ->
  use_hint1 g (if fst (decompose g r) =? fst (decompose g v) then 0 else 1) r = fst (decompose g v).
Proof.
  intros Hg Hv (z0 & ((tz & Ez) & _) & Hz).
  pose proof (decompose_spec g r Hg) as Dr. pose proof (decompose_spec g v Hg) as Dv. unfold use_hint1.
  destruct (decompose g r) as [r1 r0]. destruct (decompose g v) as [v1 v0]. cbn [fst snd] in *.
  destruct Dr as ((t & Er) & Br & Cr). destruct Dv as ((t' & Ev) & Bv & Cv). destruct Hv as [tv Hv].
  assert (X : exists T, (v1 - r1) * (2 * g) = r0 + z0 - v0 + T * q).
  { exists (t - t' + tv + tz). subst z r v. nia. }
  clear Er Ev Hv Ez. destruct X as [T X]. rewrite q_val in *.
  destruct (Z.eqb_spec r1 v1) as [->|N]; [reflexivity|]. cbn [Z.eqb Pos.eqb andb].
  destruct Hg as [->| ->].
  - change ((8380417 - 1) / (2 * 95232)) with 44 in *. change (2 * 95232) with 190464 in X.
    destruct (r0 >? 0) eqn:S; rewrite Z.gtb_ltb in S; [apply Z.ltb_lt in S|apply Z.ltb_ge in S].
    + destruct (Z.leb_spec r0 0); [lia|].
      assert (K : v1 = r1 + 1 \/ r1 = 43 /\ v1 = 0) by lia.
      destruct K as [->|[-> ->]]; [apply Z.mod_small; lia|reflexivity].
    + destruct (Z.leb_spec r0 0); [|lia].
      assert (K : v1 = r1 - 1 \/ r1 = 0 /\ v1 = 43) by lia.
      destruct K as [->|[-> ->]]; [apply Z.mod_small; lia|reflexivity].
  - change ((8380417 - 1) / (2 * 261888)) with 16 in *. change (2 * 261888) with 523776 in X.
    destruct (r0 >? 0) eqn:S; rewrite Z.gtb_ltb in S; [apply Z.ltb_lt in S|apply Z.ltb_ge in S].
    + destruct (Z.leb_spec r0 0); [lia|].
      assert (K : v1 = r1 + 1 \/ r1 = 15 /\ v1 = 0) by lia.
      destruct K as [->|[-> ->]]; [apply Z.mod_small; lia|reflexivity].
    + destruct (Z.leb_spec r0 0); [|lia].
      assert (K : v1 = r1 - 1 \/ r1 = 0 /\ v1 = 15) by lia.
      destruct K as [->|[-> ->]]; [apply Z.mod_small; lia|reflexivity].
Qed.

Lemma use_hint1_range g h r : good_gam2 g -> 0 <= use_hint1 g h r < (q - 1) / (2 * g).
Proof.
  intro Hg. pose proof (decompose_spec g r Hg) as D. unfold use_hint1.
  destruct (decompose g r) as [r1 r0]. cbn [fst snd] in D. destruct D as (_ & B & _).
  assert (P : 0 < (q - 1) / (2 * g)) by (destruct Hg as [->| ->]; reflexivity).
  pose proof (Z.mod_pos_bound (r1 + 1) _ P). pose proof (fun x => Z.mod_pos_bound (x - 1) _ P) as M.
  destruct ((h =? 1) && (r0 >? 0)); destruct ((h =? 1) && (r0 <=? 0)); auto.
Qed.

(** The high part is stable under a perturbation that the low part leaves room for. *)
Lemma high_stable g beta r v s : good_gam2 g -> cg q v (r + s) -> small q beta s ->
  Z.abs (snd (decompose g r)) < g - beta -> fst (decompose g v) = fst (decompose g r).
Proof.
  intros Hg Hv (z0 & ((tz & Ez) & _) & Hz) Hlow.
  pose proof (decompose_spec g r Hg) as Dr. pose proof (decompose_spec g v Hg) as Dv.
  destruct (decompose g r) as [r1 r0]. destruct (decompose g v) as [v1 v0]. cbn [fst snd] in *.
  destruct Dr as ((t & Er) & Br & Cr). destruct Dv as ((t' & Ev) & Bv & Cv). destruct Hv as [tv Hv].
  assert (X : exists T, (v1 - r1) * (2 * g) = r0 + z0 - v0 + T * q).
  { exists (t - t' + tv + tz). subst s r v. nia. }
  clear Er Ev Hv Ez. destruct X as [T X]. rewrite q_val in *.
  destruct Hg as [->| ->].
  - change ((8380417 - 1) / (2 * 95232)) with 44 in *. lia.
  - change ((8380417 - 1) / (2 * 261888)) with 16 in *. lia.
Qed.

(** * Norms *)
Lemma fold_max_bound {A} (f : A -> Z) l : forall y b, fold_left (fun y x => Z.max y (f x)) l y < b ->
  y < b /\ Forall (fun x => f x < b) l.
Proof.
  induction l as [|x l IH]; intros y b H; cbn [fold_left] in H; [auto|].
  apply IH in H as [H1 H2]. split; [lia|]. constructor; [lia|exact H2].
Qed.
Lemma fold_max_lt {A} (f : A -> Z) l : forall y b, y < b -> Forall (fun x => f x < b) l ->
  fold_left (fun y x => Z.max y (f x)) l y < b.
Proof.
  induction l as [|x l IH]; intros y b H F; cbn [fold_left]; [auto|].
  inversion_clear F. apply IH; [lia|assumption].
Qed.

Lemma inf_norm_lt v b : 0 < b -> inf_norm v < b <-> Forall (Forall (fun x => Z.abs (modpm x q) < b)) v.
Proof.
  intro Hb. unfold inf_norm. split.
  - intro H. apply (fold_max_bound inf_norm_poly) in H as [_ H]. eapply Forall_impl; [|exact H].
    intros f Hf. unfold inf_norm_poly in Hf. apply (fold_max_bound (fun x => Z.abs (modpm x q))) in Hf as [_ Hf]. exact Hf.
  - intro H. apply (fold_max_lt inf_norm_poly); [exact Hb|]. eapply Forall_impl; [|exact H].
    intros f Hf. apply (fold_max_lt (fun x => Z.abs (modpm x q))); [exact Hb|exact Hf].
Qed.

Lemma modpm_small x b : Z.abs (modpm x q) < b -> small q (b - 1) x.
Proof. intro H. exists (modpm x q). split; [apply modpm_spec, q_pos|lia]. Qed.

Lemma modpm_q_id x : - q < 2 * x <= q -> modpm x q = x.
Proof. intro H. apply modpm_eq; [exact q_pos|]. split; [exists 0; ring|exact H]. Qed.
Lemma modpm_idem x : modpm (modpm x q) q = modpm x q.
Proof. apply modpm_q_id. apply (modpm_spec x q q_pos). Qed.
Lemma modpm_cg x : cg q (modpm x q) x.
Proof. destruct (modpm_spec x q q_pos) as ((t & E) & _). symmetry. exists t. exact E. Qed.
