(** The samplers of the ML-DSA model. *)
From Verif Require Export MlDsaRing.
From Coq Require Import Setoid Morphisms.
Local Open Scope Z_scope.

Lemma bytes_cons x l : is_bytes (x :: l) = true <-> 0 <= x < 256 /\ is_bytes l = true.
Proof.
  unfold is_bytes. cbn [forallb]. rewrite andb_true_iff. split; intros [H1 H2]; split; auto.
  - apply andb_prop in H1 as [A B]. apply Z.leb_le in A. apply Z.ltb_lt in B. lia.
  - apply andb_true_iff. split; [apply Z.leb_le|apply Z.ltb_lt]; lia.
Qed.

(** * rej_ntt_poly *)
Lemma three_bytes_range b0 b1 b2 a : 0 <= b0 < 256 -> 0 <= b1 < 256 -> 0 <= b2 < 256 ->
  coeff_from_three_bytes b0 b1 b2 = Some a -> 0 <= a < q.
Proof.
  intros H0 H1 H2. unfold coeff_from_three_bytes.
  set (b := if b2 >? 127 then b2 - 128 else b2).
  assert (Hb : 0 <= b) by (unfold b; rewrite Z.gtb_ltb; destruct (Z.ltb_spec 127 b2); lia).
  rewrite !Z.shiftl_mul_pow2 by lia. clearbody b.
  destruct (Z.ltb_spec (b * 2 ^ 16 + b1 * 2 ^ 8 + b0) q); [|discriminate]. intros [= <-]. lia.
Qed.

Lemma bytes_forall l : is_bytes l = true <-> Forall (fun x => 0 <= x < 256) l.
Proof.
  induction l as [|x l IH]; [split; intro; [constructor|reflexivity]|]. rewrite bytes_cons, IH. split.
  - intros [H1 H2]. constructor; assumption.
  - intro H. inversion_clear H. auto.
Qed.

Lemma rej_ntt_loop_ok m : forall s, (length s <= m)%nat -> forall n f, is_bytes s = true ->
  rej_ntt_loop n s = Ok f -> length f = n /\ reduced q f.
Proof.
  induction m as [|m IH]; intros s Hm n f B E.
  - destruct s; [|simpl in Hm; lia]. destruct n; [|discriminate]. injection E as <-. split; [reflexivity|constructor].
  - destruct n as [|n]; [destruct s; injection E as <-; split; [reflexivity|constructor|reflexivity|constructor]|].
    destruct s as [|b0 [|b1 [|b2 s]]]; try discriminate. cbn [rej_ntt_loop] in E.
    apply bytes_cons in B as [B0 B]. apply bytes_cons in B as [B1 B]. apply bytes_cons in B as [B2 B].
    cbn [length] in Hm.
    destruct (coeff_from_three_bytes b0 b1 b2) eqn:C.
    + destruct (rej_ntt_loop n s) as [r|] eqn:R; [|discriminate]. injection E as <-.
      destruct (IH s ltac:(lia) n r B R) as [L F]. split; [cbn [length]; rewrite L; reflexivity|].
      constructor; [|exact F]. apply (three_bytes_range b0 b1 b2); assumption.
    + apply (IH s ltac:(lia) (S n) f B E).
Qed.
Lemma rej_ntt_poly_ok s f : is_bytes s = true -> rej_ntt_poly s = Ok f -> length f = 256%nat /\ reduced q f.
Proof. intros B E. apply (rej_ntt_loop_ok (length s) s (le_n _) 256 f B E). Qed.

(** * rej_bounded_poly *)
Lemma half_byte_range eta b a : 0 <= b -> coeff_from_half_byte eta b = Some a -> - eta <= a <= eta.
Proof.
  intro Hb. unfold coeff_from_half_byte.
  destruct (Z.eqb_spec eta 2) as [->|]; cbn [andb].
  - destruct (Z.ltb_spec b 15); cbn [andb].
    + intro E. pose proof (Z.mod_pos_bound b 5 ltac:(lia)) as M. revert E M. generalize (b mod 5). intros x E M.
      assert (a = 2 - x) by congruence. lia.
    + change (2 =? 4) with false. discriminate.
  - destruct (Z.eqb_spec eta 4) as [->|]; cbn [andb]; [|discriminate].
    destruct (Z.ltb_spec b 9); [|discriminate]. intro E. assert (a = 4 - b) by congruence. lia.
Qed.

Lemma rej_bounded_loop_ok eta s : forall n f, is_bytes s = true -> rej_bounded_loop eta n s = Ok f ->
  length f = n /\ Forall (fun x => - eta <= x <= eta) f.
Proof.
  induction s as [|z s IH]; intros n f B E.
  - destruct n; [|discriminate]. injection E as <-. split; [reflexivity|constructor].
  - destruct n as [|n]; [injection E as <-; split; [reflexivity|constructor]|].
    apply bytes_cons in B as [Bz B]. cbn [rej_bounded_loop] in E.
    pose proof (Z.mod_pos_bound z 16 ltac:(lia)) as M. pose proof (Z.div_pos z 16 ltac:(lia) ltac:(lia)) as D.
    destruct (coeff_from_half_byte eta (z mod 16)) as [z0|] eqn:C0; [apply half_byte_range in C0; [|lia]|];
    (destruct (coeff_from_half_byte eta (z / 16)) as [z1|] eqn:C1; [apply half_byte_range in C1; [|lia]|]).
    + destruct n as [|n]; [injection E as <-; split; [reflexivity|repeat constructor; lia]|].
      destruct (rej_bounded_loop eta n s) as [r|] eqn:R; [|discriminate]. injection E as <-.
      destruct (IH n r B R) as [L F]. split; [cbn [length]; lia|]. constructor; [exact C0|]. constructor; [exact C1|exact F].
    + destruct (rej_bounded_loop eta n s) as [r|] eqn:R; [|discriminate]. injection E as <-.
      destruct (IH n r B R) as [L F]. split; [cbn [length]; lia|]. constructor; [exact C0|exact F].
    + destruct (rej_bounded_loop eta n s) as [r|] eqn:R; [|discriminate]. injection E as <-.
      destruct (IH n r B R) as [L F]. split; [cbn [length]; lia|]. constructor; [exact C1|exact F].
    + apply (IH (S n) f B E).
Qed.
Lemma rej_bounded_poly_ok p s f : is_bytes s = true -> rej_bounded_poly p s = Ok f ->
  length f = 256%nat /\ Forall (fun x => - eta p <= x <= eta p) f.
Proof. apply rej_bounded_loop_ok. Qed.

(** * sample_in_ball *)
Fixpoint asum (l : list Z) : Z := match l with [] => 0 | x :: r => Z.abs x + asum r end.

Lemma asum_upd l : forall j x, (j < length l)%nat -> asum (upd l j x) = asum l - Z.abs (nthz j l) + Z.abs x.
Proof.
  induction l as [|y l IH]; intros j x H; [simpl in H; lia|]. destruct j as [|j]; cbn [upd asum].
  - change (nthz 0 (y :: l)) with y. lia.
  - rewrite IH by (simpl in H; lia). change (nthz (S j) (y :: l)) with (nthz j l). lia.
Qed.
Lemma asum_repeat n : asum (repeat 0 n) = 0.
Proof. induction n as [|n IH]; [reflexivity|]. cbn [repeat asum]. rewrite IH. reflexivity. Qed.
Lemma asum_app a b : asum (a ++ b) = asum a + asum b.
Proof. induction a as [|x a IH]; [reflexivity|]. cbn [app asum]. rewrite IH. lia. Qed.
Lemma asum_zsum l : zsum (length l) (fun i => Z.abs (nthz i l)) = asum l.
Proof.
  induction l as [|x l IH] using rev_ind; [reflexivity|]. rewrite app_length. cbn [length].
  replace (length l + 1)%nat with (S (length l)) by lia. cbn [zsum]. rewrite asum_app. cbn [asum].
  rewrite <- IH. f_equal.
  - apply zsum_ext. intros i Hi. unfold nthz. rewrite app_nth1 by exact Hi. reflexivity.
  - unfold nthz. rewrite app_nth2, Nat.sub_diag by lia. cbn [nth]. lia.
Qed.

Definition tern (x : Z) : Prop := x = -1 \/ x = 0 \/ x = 1.
Lemma asum_nonzeros l : Forall tern l -> asum l = Z.of_nat (nonzeros [l]).
Proof.
  unfold nonzeros. cbn [concat]. rewrite app_nil_r.
  induction 1 as [|x l Hx _ IH]; [reflexivity|]. cbn [asum filter]. rewrite IH.
  destruct Hx as [->|[->| ->]]; cbn [negb Z.eqb length]; lia.
Qed.

Lemma read_upto_ok i s : is_bytes s = true -> forall j s', read_upto i s = Ok (j, s') -> (j <= i)%nat /\ is_bytes s' = true.
Proof.
  induction s as [|x s IH]; intros B j s' E; [discriminate|]. apply bytes_cons in B as [Bx B]. cbn [read_upto] in E.
  destruct (x >? Z.of_nat i) eqn:G; [apply IH; assumption|]. injection E as <- <-.
  rewrite Z.gtb_ltb in G. apply Z.ltb_ge in G. split; [lia|exact B].
Qed.

Lemma tern_upd l : forall j x, Forall tern l -> tern x -> Forall tern (upd l j x).
Proof.
  induction l as [|y l IH]; intros j x F H; [constructor|]. inversion_clear F. destruct j; cbn [upd]; constructor; auto.
Qed.
Lemma tern_nthz j l : Forall tern l -> tern (nthz j l).
Proof.
  intro F. unfold nthz. destruct (Nat.lt_ge_cases j (length l)) as [H|H].
  - eapply Forall_forall in F; [exact F|]. apply nth_In. exact H.
  - rewrite nth_overflow by exact H. right. left. reflexivity.
Qed.

Lemma ball_loop_ok p h n : forall i s c c', is_bytes s = true -> length c = 256%nat -> (i + n <= 256)%nat ->
  Forall tern c -> (forall j, (i <= j)%nat -> nthz j c = 0) ->
  ball_loop p (seq i n) h s c = Ok c' ->
  length c' = 256%nat /\ Forall tern c' /\ asum c' = asum c + Z.of_nat n.
Proof.
  induction n as [|n IH]; intros i s c c' B L Hi F Z0 E.
  - injection E as <-. split; [exact L|]. split; [exact F|]. lia.
  - change (seq i (S n)) with (i :: seq (S i) n) in E. cbn [ball_loop] in E.
    destruct (read_upto i s) as [[j s']|] eqn:R; [|discriminate]. cbn [bind] in E.
    destruct (read_upto_ok i s B j s' R) as [Hj B'].
    destruct (length h <=? i + tau p - 256)%nat; [discriminate|].
    set (sg := if nthz (i + tau p - 256) h =? 0 then 1 else -1) in *.
    assert (Ts : tern sg /\ Z.abs sg = 1) by (unfold sg, tern; destruct (_ =? 0); split; auto).
    destruct Ts as [Ts As]. clearbody sg.
    set (c1 := upd c i (nthz j c)) in *.
    assert (L1 : length c1 = 256%nat) by (unfold c1; rewrite upd_length; exact L).
    assert (N1 : forall x, nthz x c1 = if (x =? i)%nat then nthz j c else nthz x c)
      by (intro x; unfold c1; apply nthz_upd; lia).
    apply IH in E; [|exact B'|rewrite upd_length; exact L1|lia| |].
    + destruct E as (E1 & E2 & E3). split; [exact E1|]. split; [exact E2|]. rewrite E3.
      rewrite asum_upd by lia. rewrite As, N1. unfold c1. rewrite asum_upd by lia. rewrite (Z0 i) by lia.
      destruct (Nat.eqb_spec j i) as [->|Hne]; [rewrite (Z0 i) by lia|]; lia.
    + apply tern_upd; [|exact Ts]. apply tern_upd; [exact F|apply tern_nthz; exact F].
    + intros x Hx. rewrite nthz_upd by lia. destruct (Nat.eqb_spec x j) as [->|_]; [lia|].
      rewrite N1. destruct (Nat.eqb_spec x i) as [->|_]; [lia|]. apply Z0. lia.
Qed.

Lemma sample_in_ball_ok p s c : (tau p <= 256)%nat -> is_bytes s = true -> sample_in_ball p s = Ok c ->
  length c = 256%nat /\ Forall tern c /\ asum c = Z.of_nat (tau p).
Proof.
  intros Ht B E. unfold sample_in_ball in E. destruct (length s <? 8)%nat; [discriminate|].
  assert (B8 : is_bytes (skipn 8 s) = true).
  { apply bytes_forall. apply bytes_forall in B. rewrite <- (firstn_skipn 8 s) in B. apply Forall_app in B. apply B. }
  apply ball_loop_ok in E; [|exact B8|apply repeat_length|lia| |].
  - rewrite asum_repeat in E. exact E.
  - apply Forall_forall. intros x Hx. apply repeat_spec in Hx. subst. right. left. reflexivity.
  - intros j _. unfold nthz. destruct (Nat.lt_ge_cases j 256); [apply nth_repeat|apply nth_overflow; rewrite repeat_length; assumption].
Qed.

(** * The product of a challenge and a short polynomial is short *)
Lemma zsum_abs n f g : (forall i, (i < n)%nat -> Z.abs (f i) <= g i) -> Z.abs (zsum n f) <= zsum n g.
Proof.
  induction n as [|n IH]; intro H; [cbn; lia|]. cbn [zsum]. pose proof (H n ltac:(lia)).
  pose proof (IH (fun i Hi => H i (Nat.lt_lt_succ_r _ _ Hi))). lia.
Qed.

Lemma challenge_small c s b x : length c = 256%nat -> Forall (fun x => - b <= x <= b) s -> 0 <= b ->
  2 * (asum c * b) < q -> (x < 256)%nat -> small q (asum c * b) (nthz x (rmul c s)).
Proof.
  intros Lc Fs Hb Hq Hx. rewrite rmul_q. pose proof (ring_mul_nth q q_pos 256 c s x Hx) as E.
  revert E. set (v := zsum 256 _). intros [t E].
  assert (Hv : Z.abs v <= asum c * b).
  { rewrite <- asum_zsum, Lc, <- zsum_scale_r. apply zsum_abs. intros i Hi. rewrite Z.abs_mul.
    apply Z.mul_le_mono_nonneg_l; [lia|].
    assert (Hs : forall m, Z.abs (nthz m s) <= b).
    { intro m. unfold nthz. destruct (Nat.lt_ge_cases m (length s)) as [H|H].
      - rewrite Forall_forall in Fs. specialize (Fs (nth m s 0) (nth_In _ _ H)). lia.
      - rewrite nth_overflow by exact H. lia. }
    destruct (i <=? x)%nat; [apply Hs|]. rewrite Z.abs_opp. apply Hs. }
  exists v. split; [|exact Hv]. split; [|lia]. exists t. exact E.
Qed.
