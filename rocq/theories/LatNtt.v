(** In-place number theoretic transforms over 256 coefficients, in general: a
    table [z] of twiddle factors indexed like a heap (block [b] of the layer
    with [n] blocks uses entry [n + b] on the way down and entry [2n - 1 - b] on
    the way back). *)
From Verif Require Export LatFacts.
From Coq Require Import Setoid Morphisms.
Local Open Scope Z_scope.

Lemma iter_succ_r {A} n (f : A -> A) x : Nat.iter (S n) f x = Nat.iter n f (f x).
Proof. induction n as [|n IH]; [reflexivity|]. change (f (Nat.iter (S n) f x) = f (Nat.iter n f (f x))). f_equal. exact IH. Qed.

Section Steps.
Variable q : Z.

(** [step i le j] replaces the pair at [j], [j + le] by a linear image. *)
Definition butterfly (step : nat -> nat -> nat -> list Z -> list Z) (ca cb cc cd : nat -> Z) : Prop :=
  forall i le j f, (0 < le)%nat -> (j + le < length f)%nat ->
    length (step i le j f) = length f /\
    forall c, (c < length f)%nat ->
      cg q (nthz c (step i le j f))
           (if Nat.eqb c j then ca i * nthz j f + cb i * nthz (j + le) f
            else if Nat.eqb c (j + le) then cc i * nthz j f + cd i * nthz (j + le) f
            else nthz c f).

Variable step : nat -> nat -> nat -> list Z -> list Z.
Variables ca cb cc cd : nat -> Z.
Hypothesis B : butterfly step ca cb cc cd.
Variable next : nat -> nat.

Lemma block_nth i le st : (0 < le)%nat -> forall n f, (n <= le)%nat -> (st + n + le <= length f)%nat ->
  length (block (step i le) st n f) = length f /\
  forall c, (c < length f)%nat ->
    cg q (nthz c (block (step i le) st n f))
         (if ((st <=? c) && (c <? st + n))%nat then ca i * nthz c f + cb i * nthz (c + le) f
          else if ((st + le <=? c) && (c <? st + le + n))%nat then cc i * nthz (c - le) f + cd i * nthz c f
          else nthz c f).
Proof using B.
  intro Hle. unfold block. induction n as [|n IH]; intros f Hn L.
  - cbn [seq fold_left]. split; [reflexivity|]. intros c Hc.
    destruct (Nat.leb_spec st c), (Nat.ltb_spec c (st + 0)), (Nat.leb_spec (st + le) c), (Nat.ltb_spec c (st + le + 0)); cbn [andb]; try lia; reflexivity.
  - rewrite seq_S, fold_left_app. cbn [fold_left]. destruct (IH f) as [L1 N1]; [lia|lia|].
    set (f1 := fold_left (fun f j => step i le j f) (seq st n) f) in *.
    destruct (B i le (st + n)%nat f1 Hle) as [L2 N2]; [lia|].
    split; [lia|]. intros c Hc. rewrite N2 by lia.
    assert (E1 : cg q (nthz (st + n) f1) (nthz (st + n) f)).
    { rewrite N1 by lia.
      destruct (Nat.leb_spec st (st + n)), (Nat.ltb_spec (st + n) (st + n)), (Nat.leb_spec (st + le) (st + n)), (Nat.ltb_spec (st + n) (st + le + n)); cbn [andb]; try lia; reflexivity. }
    assert (E2 : cg q (nthz (st + n + le) f1) (nthz (st + n + le) f)).
    { rewrite N1 by lia.
      destruct (Nat.leb_spec st (st + n + le)), (Nat.ltb_spec (st + n + le) (st + n)), (Nat.leb_spec (st + le) (st + n + le)), (Nat.ltb_spec (st + n + le) (st + le + n)); cbn [andb]; try lia; reflexivity. }
    destruct (Nat.eqb_spec c (st + n)) as [->|N].
    + rewrite E1, E2.
      destruct (Nat.leb_spec st (st + n)), (Nat.ltb_spec (st + n) (st + S n)); cbn [andb]; try lia. reflexivity.
    + destruct (Nat.eqb_spec c (st + n + le)) as [->|N'].
      * rewrite E1, E2. replace (st + n + le - le)%nat with (st + n)%nat by lia.
        destruct (Nat.leb_spec st (st + n + le)), (Nat.ltb_spec (st + n + le) (st + S n)), (Nat.leb_spec (st + le) (st + n + le)), (Nat.ltb_spec (st + n + le) (st + le + S n)); cbn [andb]; try lia. reflexivity.
      * rewrite N1 by lia.
        destruct (Nat.leb_spec st c), (Nat.ltb_spec c (st + n)), (Nat.ltb_spec c (st + S n)); cbn [andb]; try lia; try reflexivity;
          destruct (Nat.leb_spec (st + le) c), (Nat.ltb_spec c (st + le + n)), (Nat.ltb_spec c (st + le + S n)); cbn [andb]; try lia; reflexivity.
Qed.

Lemma blocks_nth le : (0 < le)%nat -> forall n st i f, (st + 2 * le * n <= length f)%nat ->
  length (fst (blocks step next n st le i f)) = length f /\
  (forall c, (c < length f)%nat -> (c < st)%nat \/ (st + 2 * le * n <= c)%nat ->
     cg q (nthz c (fst (blocks step next n st le i f))) (nthz c f)) /\
  (forall b x, (b < n)%nat -> (x < le)%nat ->
     let i' := Nat.iter b next i in let c := (st + 2 * le * b + x)%nat in
     cg q (nthz c (fst (blocks step next n st le i f))) (ca i' * nthz c f + cb i' * nthz (c + le) f) /\
     cg q (nthz (c + le) (fst (blocks step next n st le i f))) (cc i' * nthz c f + cd i' * nthz (c + le) f)).
Proof using B.
  intro Hle. induction n as [|n IH]; intros st i f L.
  - cbn [blocks fst]. split; [reflexivity|]. split; [intros; reflexivity|]. intros; lia.
  - cbn [blocks]. destruct (block_nth i le st Hle le f) as [L1 N1]; [lia|nia|].
    set (f1 := block (step i le) st le f) in *.
    destruct (IH (st + 2 * le)%nat (next i) f1) as (L2 & O2 & I2); [nia|].
    split; [lia|]. split.
    + intros c Hc O. rewrite O2 by nia. rewrite N1 by lia.
      destruct (Nat.leb_spec st c), (Nat.ltb_spec c (st + le)), (Nat.leb_spec (st + le) c), (Nat.ltb_spec c (st + le + le)); cbn [andb]; try nia; reflexivity.
    + intros b x Hb Hx. cbv zeta. destruct b as [|b].
      * replace (st + 2 * le * 0 + x)%nat with (st + x)%nat by lia. cbn [Nat.iter].
        split; rewrite O2, N1 by nia.
        -- destruct (Nat.leb_spec st (st + x)), (Nat.ltb_spec (st + x) (st + le)); cbn [andb]; try lia. reflexivity.
        -- replace (st + x + le - le)%nat with (st + x)%nat by lia.
           destruct (Nat.leb_spec st (st + x + le)), (Nat.ltb_spec (st + x + le) (st + le)), (Nat.leb_spec (st + le) (st + x + le)), (Nat.ltb_spec (st + x + le) (st + le + le)); cbn [andb]; try lia. reflexivity.
      * destruct (I2 b x) as [J1 J2]; [lia|exact Hx|]. cbv zeta in J1, J2.
        replace (Nat.iter (S b) next i) with (Nat.iter b next (next i)) by (symmetry; apply iter_succ_r).
        replace (st + 2 * le * S b + x)%nat with (st + 2 * le + 2 * le * b + x)%nat by lia.
        assert (E : forall c, (st + 2 * le <= c)%nat -> (c < length f)%nat -> cg q (nthz c f1) (nthz c f)).
        { intros c H1 H2. rewrite N1 by lia.
          destruct (Nat.leb_spec st c), (Nat.ltb_spec c (st + le)), (Nat.leb_spec (st + le) c), (Nat.ltb_spec c (st + le + le)); cbn [andb]; try lia; reflexivity. }
        rewrite J1, J2, !E by nia. split; reflexivity.
Qed.

Lemma blocks_index : forall n st le i f, snd (blocks step next n st le i f) = Nat.iter n next i.
Proof using.
  induction n as [|n IH]; intros st le i f; [reflexivity|]. cbn [blocks]. rewrite IH. symmetry. apply iter_succ_r.
Qed.

Lemma layers_cons le r i f :
  layers step next (le :: r) i f =
  layers step next r (Nat.iter (Nat.div 256 (2 * le)) next i) (fst (blocks step next (Nat.div 256 (2 * le)) 0 le i f)).
Proof using.
  cbn [layers]. rewrite <- (blocks_index (Nat.div 256 (2 * le)) 0 le i f). destruct (blocks _ _ _ _ _ _ _); reflexivity.
Qed.
End Steps.

Lemma iter_S n i : Nat.iter n S i = (i + n)%nat.
Proof. induction n; cbn [Nat.iter nat_rect]; [lia|]. unfold Nat.iter in *. cbn. rewrite IHn. lia. Qed.
Lemma iter_pred n i : Nat.iter n pred i = (i - n)%nat.
Proof. induction n; cbn [Nat.iter nat_rect]; [lia|]. unfold Nat.iter in *. cbn. rewrite IHn. lia. Qed.

Lemma cg_pow q a b n : cg q a b -> cg q (a ^ Z.of_nat n) (b ^ Z.of_nat n).
Proof.
  intro H. induction n as [|n IH]; [reflexivity|]. rewrite Nat2Z.inj_succ, !Z.pow_succ_r by lia. rewrite IH, H. reflexivity.
Qed.

Lemma mono_step q (w x x0 a : nat) (R zi s u v1 v2 : Z) : (x < w)%nat -> (x0 < 2 * w)%nat ->
  cg q v1 (if Nat.eqb x x0 then R else 0) -> cg q v2 (if Nat.eqb (x + w) x0 then R else 0) ->
  cg q (u ^ Z.of_nat (2 * a)) R -> cg q (u ^ Z.of_nat (2 * a + 1)) (s * zi * R) ->
  cg q (v1 + s * zi * v2)
       (if Nat.eqb x (if Nat.ltb x0 w then x0 else x0 - w) then u ^ Z.of_nat (2 * a + (if Nat.ltb x0 w then 0 else 1)) else 0).
Proof.
  intros Hx H0 H1 H2 HE HO. destruct (Nat.ltb_spec x0 w) as [X|X].
  - rewrite Nat.add_0_r. destruct (Nat.eqb_spec x x0), (Nat.eqb_spec (x + w) x0); try lia; rewrite H1, H2; [rewrite HE|]; apply cg_of_eq; ring.
  - destruct (Nat.eqb_spec x x0), (Nat.eqb_spec (x + w) x0), (Nat.eqb_spec x (x0 - w)); try lia; rewrite H1, H2; [rewrite HO|]; apply cg_of_eq; ring.
Qed.

Section Transform.
Variable q : Z.
Hypothesis q_pos : 0 < q.
Variable z : nat -> Z.
Variables fstep gstep : nat -> nat -> nat -> list Z -> list Z.
Hypothesis BF : butterfly q fstep (fun _ => 1) z (fun _ => 1) (fun i => - z i).
Hypothesis BG : butterfly q gstep (fun _ => 1) (fun _ => 1) (fun i => - z i) z.

(** Layer with [n] blocks of width [2 le]. *)
Definition flay (n le : nat) (f : list Z) : list Z := fst (blocks fstep S n 0 le n f).
Definition glay (n le : nat) (f : list Z) : list Z := fst (blocks gstep pred n 0 le (2 * n - 1) f).

Lemma butterfly_Lin step a b c d i le j n : butterfly q step a b c d -> (0 < le)%nat -> (j + le < n)%nat ->
  Lin q n (step i le j).
Proof using.
  intros H Hle Hj u v f g h (Lf & Lg & Lh & E).
  destruct (H i le j f Hle) as [L1 N1]; [lia|]. destruct (H i le j g Hle) as [L2 N2]; [lia|].
  destruct (H i le j h Hle) as [L3 N3]; [lia|].
  split; [lia|]. split; [lia|]. split; [lia|]. intros x Hx. rewrite N1, N2, N3 by lia.
  destruct (Nat.eqb x j); [rewrite !E by lia; apply cg_of_eq; ring|].
  destruct (Nat.eqb x (j + le)); rewrite !E by lia; apply cg_of_eq; ring.
Qed.

Lemma flay_Lin n le : (0 < le)%nat -> (2 * le * n = 256)%nat -> Lin q 256 (flay n le).
Proof using BF.
  intros H E. unfold flay. apply Lin_blocks. intros i j _ Hj. eapply butterfly_Lin; [exact BF|exact H|lia].
Qed.
Lemma glay_Lin n le : (0 < le)%nat -> (2 * le * n = 256)%nat -> Lin q 256 (glay n le).
Proof using BG.
  intros H E. unfold glay. apply Lin_blocks. intros i j _ Hj. eapply butterfly_Lin; [exact BG|exact H|lia].
Qed.

Lemma flay_nth n le f : (0 < le)%nat -> (2 * le * n = 256)%nat -> length f = 256%nat ->
  forall b x, (b < n)%nat -> (x < le)%nat -> let c := (2 * le * b + x)%nat in
  cg q (nthz c (flay n le f)) (nthz c f + z (n + b) * nthz (c + le) f) /\
  cg q (nthz (c + le) (flay n le f)) (nthz c f - z (n + b) * nthz (c + le) f).
Proof using BF.
  intros H E L b x Hb Hx. cbv zeta. unfold flay.
  destruct (blocks_nth q fstep _ _ _ _ BF S le H n 0 n f) as (_ & _ & N); [lia|].
  destruct (N b x Hb Hx) as [N1 N2]. cbv zeta in N1, N2. rewrite Nat.add_0_l in N1, N2. rewrite iter_S in N1, N2.
  rewrite N1, N2. split; apply cg_of_eq; ring.
Qed.
Lemma glay_nth n le f : (0 < le)%nat -> (2 * le * n = 256)%nat -> length f = 256%nat ->
  forall b x, (b < n)%nat -> (x < le)%nat -> let c := (2 * le * b + x)%nat in
  cg q (nthz c (glay n le f)) (nthz c f + nthz (c + le) f) /\
  cg q (nthz (c + le) (glay n le f)) (z (2 * n - 1 - b) * (nthz (c + le) f - nthz c f)).
Proof using BG.
  intros H E L b x Hb Hx. cbv zeta. unfold glay.
  destruct (blocks_nth q gstep _ _ _ _ BG pred le H n 0 (2 * n - 1)%nat f) as (_ & _ & N); [lia|].
  destruct (N b x Hb Hx) as [N1 N2]. cbv zeta in N1, N2. rewrite Nat.add_0_l in N1, N2. rewrite iter_pred in N2.
  rewrite N1, N2. split; apply cg_of_eq; ring.
Qed.

(** Every position is in the lower or the upper half of one block. *)
Lemma position n le c : (0 < le)%nat -> (2 * le * n = 256)%nat -> (c < 256)%nat ->
  exists b x, (b < n)%nat /\ (x < le)%nat /\ (c = 2 * le * b + x \/ c = 2 * le * b + x + le)%nat.
Proof using.
  intros H E Hc. pose proof (Nat.div_mod c (2 * le) ltac:(lia)) as D.
  pose proof (Nat.mod_upper_bound c (2 * le) ltac:(lia)) as M.
  assert (Nat.div c (2 * le) < n)%nat by (apply Nat.div_lt_upper_bound; lia).
  destruct (Nat.lt_ge_cases (Nat.modulo c (2 * le)) le) as [X|X].
  - exists (Nat.div c (2 * le)), (Nat.modulo c (2 * le)). split; [auto|]. split; [auto|]. left. exact D.
  - exists (Nat.div c (2 * le)), (Nat.modulo c (2 * le) - le)%nat. split; [auto|]. split; [lia|]. right. lia.
Qed.

Definition scaled (s : Z) (f g : list Z) : Prop :=
  length f = 256%nat /\ length g = 256%nat /\ forall c, (c < 256)%nat -> cg q (nthz c f) (s * nthz c g).

Lemma scaled_Lin F s f g : Lin q 256 F -> scaled s f g -> scaled s (F f) (F g).
Proof using.
  intros H (L1 & L2 & E). destruct (H s 0 g g f) as (A & _ & C & D).
  - split; [auto|]. split; [auto|]. split; [auto|]. intros j Hj. rewrite (E j Hj). apply cg_of_eq. ring.
  - split; [auto|]. split; [auto|]. intros c Hc. rewrite (D c Hc). apply cg_of_eq. ring.
Qed.
Lemma scaled_trans s t f g h : scaled s f g -> scaled t g h -> scaled (s * t) f h.
Proof using.
  intros (L1 & L2 & E) (L3 & L4 & E'). split; [auto|]. split; [auto|]. intros c Hc.
  rewrite (E c Hc), (E' c Hc). apply cg_of_eq. ring.
Qed.

Section Layer.
Variables n le : nat.
Hypothesis Hle : (0 < le)%nat.
Hypothesis Hn : (2 * le * n = 256)%nat.
Hypothesis Hz : forall b, (b < n)%nat -> cg q (z (n + b) * z (2 * n - 1 - b)) (-1).

Lemma flay_length f : length f = 256%nat -> length (flay n le f) = 256%nat.
Proof using BF Hle Hn. apply (Lin_length q). apply flay_Lin; assumption. Qed.
Lemma glay_length f : length f = 256%nat -> length (glay n le f) = 256%nat.
Proof using BG Hle Hn. apply (Lin_length q). apply glay_Lin; assumption. Qed.

Lemma glay_flay f : length f = 256%nat -> scaled 2 (glay n le (flay n le f)) f.
Proof using BF BG Hle Hn Hz.
  intro L. pose proof (flay_length f L) as L1. split; [apply glay_length, L1|]. split; [exact L|].
  intros c Hc. destruct (position n le c Hle Hn Hc) as (b & x & Hb & Hx & E).
  destruct (flay_nth n le f Hle Hn L b x Hb Hx) as [F1 F2].
  destruct (glay_nth n le (flay n le f) Hle Hn L1 b x Hb Hx) as [G1 G2]. cbv zeta in *.
  destruct E as [-> | ->].
  - rewrite G1, F1, F2. apply cg_of_eq. ring.
  - rewrite G2, F1, F2. pose proof (Hz b Hb) as Z.
    transitivity ((z (n + b) * z (2 * n - 1 - b)) * (-2 * nthz (2 * le * b + x + le) f)).
    + apply cg_of_eq. ring.
    + rewrite Z. apply cg_of_eq. ring.
Qed.
Lemma flay_glay f : length f = 256%nat -> scaled 2 (flay n le (glay n le f)) f.
Proof using BF BG Hle Hn Hz.
  intro L. pose proof (glay_length f L) as L1. split; [apply flay_length, L1|]. split; [exact L|].
  intros c Hc. destruct (position n le c Hle Hn Hc) as (b & x & Hb & Hx & E).
  destruct (glay_nth n le f Hle Hn L b x Hb Hx) as [G1 G2].
  destruct (flay_nth n le (glay n le f) Hle Hn L1 b x Hb Hx) as [F1 F2]. cbv zeta in *. pose proof (Hz b Hb) as Z.
  destruct E as [-> | ->].
  - rewrite F1, G1, G2.
    transitivity (nthz (2 * le * b + x) f + nthz (2 * le * b + x + le) f + (z (n + b) * z (2 * n - 1 - b)) * (nthz (2 * le * b + x + le) f - nthz (2 * le * b + x) f)).
    + apply cg_of_eq. ring.
    + rewrite Z. apply cg_of_eq. ring.
  - rewrite F2, G1, G2.
    transitivity (nthz (2 * le * b + x) f + nthz (2 * le * b + x + le) f - (z (n + b) * z (2 * n - 1 - b)) * (nthz (2 * le * b + x + le) f - nthz (2 * le * b + x) f)).
    + apply cg_of_eq. ring.
    + rewrite Z. apply cg_of_eq. ring.
Qed.
End Layer.

(** The first [t] layers, and their inverses. *)
Definition blk (t : nat) : nat := Nat.pow 2 t.
Definition wid (t : nat) : nat := Nat.pow 2 (7 - t).
Fixpoint fwd (t : nat) (f : list Z) : list Z :=
  match t with O => f | S t' => flay (blk t') (wid t') (fwd t' f) end.
Fixpoint bwd (t : nat) (f : list Z) : list Z :=
  match t with O => f | S t' => bwd t' (glay (blk t') (wid t') f) end.

Lemma blk_wid t : (t < 8)%nat -> (0 < wid t)%nat /\ (2 * wid t * blk t = 256)%nat.
Proof using.
  intro H. unfold wid, blk. split; [apply Nat.neq_0_lt_0, Nat.pow_nonzero; lia|].
  change 2%nat with (Nat.pow 2 1) at 1. rewrite <- !Nat.pow_add_r.
  replace (1 + (7 - t) + t)%nat with 8%nat by lia. reflexivity.
Qed.

Variable T : nat.
Hypothesis HT : (T <= 8)%nat.
Hypothesis Hinv : forall t b, (t < T)%nat -> (b < blk t)%nat -> cg q (z (blk t + b) * z (2 * blk t - 1 - b)) (-1).

Lemma fwd_Lin t : (t <= T)%nat -> Lin q 256 (fwd t).
Proof using BF HT.
  induction t as [|t IH]; intro H; [apply Lin_id|]. cbn [fwd]. destruct (blk_wid t) as [W1 W2]; [lia|].
  apply (Lin_comp q 256 (flay (blk t) (wid t)) (fwd t)); [apply flay_Lin; assumption|apply IH; lia].
Qed.
Lemma bwd_Lin t : (t <= T)%nat -> Lin q 256 (bwd t).
Proof using BG HT.
  induction t as [|t IH]; intro H; [apply Lin_id|]. cbn [bwd]. destruct (blk_wid t) as [W1 W2]; [lia|].
  apply (Lin_comp q 256 (bwd t) (glay (blk t) (wid t))); [apply IH; lia|apply glay_Lin; assumption].
Qed.

Lemma bwd_fwd t f : (t <= T)%nat -> length f = 256%nat -> scaled (2 ^ Z.of_nat t) (bwd t (fwd t f)) f.
Proof using BF BG HT Hinv.
  revert f. induction t as [|t IH]; intros f H L.
  - split; [exact L|]. split; [exact L|]. intros c _. cbn [bwd fwd]. apply cg_of_eq. change (2 ^ Z.of_nat 0) with 1. ring.
  - cbn [bwd fwd]. destruct (blk_wid t) as [W1 W2]; [lia|].
    assert (Lf : length (fwd t f) = 256%nat) by (apply (Lin_length q 256 (fwd t)); [apply fwd_Lin; lia|exact L]).
    rewrite Nat2Z.inj_succ, Z.pow_succ_r by lia.
    apply (scaled_trans 2 (2 ^ Z.of_nat t) _ (bwd t (fwd t f))).
    + apply scaled_Lin; [apply bwd_Lin; lia|]. apply glay_flay; try assumption. intros b Hb. apply Hinv; [lia|exact Hb].
    + apply IH; [lia|exact L].
Qed.
Lemma fwd_bwd t f : (t <= T)%nat -> length f = 256%nat -> scaled (2 ^ Z.of_nat t) (fwd t (bwd t f)) f.
Proof using BF BG HT Hinv.
  revert f. induction t as [|t IH]; intros f H L.
  - split; [exact L|]. split; [exact L|]. intros c _. cbn [bwd fwd]. apply cg_of_eq. change (2 ^ Z.of_nat 0) with 1. ring.
  - cbn [bwd fwd]. destruct (blk_wid t) as [W1 W2]; [lia|].
    assert (Lf : length (glay (blk t) (wid t) f) = 256%nat) by (apply glay_length; assumption).
    rewrite Nat2Z.inj_succ, Z.pow_succ_r, Z.mul_comm by lia.
    apply (scaled_trans (2 ^ Z.of_nat t) 2 _ (flay (blk t) (wid t) (glay (blk t) (wid t) f))).
    + apply scaled_Lin; [apply flay_Lin; assumption|]. apply IH; [lia|exact Lf].
    + apply flay_glay; try assumption. intros b Hb. apply Hinv; [lia|exact Hb].
Qed.

(** * Monomials.  Node [i] of the heap stands for the factor [X^w - root i]. *)
Variable root : nat -> Z.
Hypothesis root1 : cg q (root 1) (-1).
Hypothesis root_l : forall i, (1 <= i < blk T)%nat -> cg q (root (2 * i)) (z i).
Hypothesis root_r : forall i, (1 <= i < blk T)%nat -> cg q (root (2 * i + 1)) (- z i).
Hypothesis zsq : forall i, (1 <= i < blk T)%nat -> cg q (z i * z i) (root i).

Lemma blk_le t : (t < T)%nat -> (blk (S t) <= blk T)%nat.
Proof using. clear. intro H. unfold blk. apply Nat.pow_le_mono_r; lia. Qed.
Lemma blk_S t : blk (S t) = (2 * blk t)%nat.
Proof using. reflexivity. Qed.
Lemma blk_pos t : (1 <= blk t)%nat.
Proof using. clear. unfold blk. pose proof (Nat.pow_nonzero 2 t). lia. Qed.

(** Both children square to the parent. *)
Lemma root_child t b : (t < T)%nat -> (b < blk (S t))%nat ->
  cg q (root (blk (S t) + b) * root (blk (S t) + b)) (root (blk t + b / 2)).
Proof using root_l root_r zsq.
  clear - root_l root_r zsq. intros Ht Hb. pose proof (blk_le t Ht) as Hle. pose proof (blk_pos t). rewrite blk_S in *.
  pose proof (Nat.div_mod b 2 ltac:(lia)) as D. pose proof (Nat.mod_upper_bound b 2 ltac:(lia)) as M.
  assert (Hi : (1 <= blk t + b / 2 < blk T)%nat) by lia.
  rewrite <- (zsq _ Hi). destruct (Nat.eq_dec (b mod 2) 0) as [E|E].
  - replace (2 * blk t + b)%nat with (2 * (blk t + b / 2))%nat by lia. rewrite (root_l _ Hi). reflexivity.
  - replace (2 * blk t + b)%nat with (2 * (blk t + b / 2) + 1)%nat by lia. rewrite (root_r _ Hi). apply cg_of_eq. ring.
Qed.

Lemma root_pow t : forall b, (t <= T)%nat -> (b < blk t)%nat -> cg q (root (blk t + b) ^ Z.of_nat (blk t)) (-1).
Proof using root1 root_l root_r zsq.
  clear - root1 root_l root_r zsq.
  induction t as [|t IH]; intros b Ht Hb.
  - change (blk 0) with 1%nat in *. replace (1 + b)%nat with 1%nat by lia. change (Z.of_nat 1) with 1. rewrite Z.pow_1_r. exact root1.
  - replace (Z.of_nat (blk (S t))) with (2 * Z.of_nat (blk t)) by (rewrite blk_S; lia).
    rewrite Z.pow_mul_r by lia. replace (root (blk (S t) + b) ^ 2) with (root (blk (S t) + b) * root (blk (S t) + b)) by ring.
    rewrite (cg_pow q _ _ (blk t) (root_child t b Ht Hb)). apply IH; [lia|].
    rewrite blk_S in Hb. apply Nat.div_lt_upper_bound; lia.
Qed.

(** Block width after [t] layers. *)
Definition wd (t : nat) : nat := Nat.pow 2 (8 - t).

Lemma fwd_unit c : (c < 256)%nat -> forall t, (t <= T)%nat -> forall b x, (b < blk t)%nat -> (x < wd t)%nat ->
  cg q (nthz (wd t * b + x) (fwd t (unit_vec 256 c)))
       (if Nat.eqb x (Nat.modulo c (wd t)) then root (blk t + b) ^ Z.of_nat (Nat.div c (wd t)) else 0).
Proof using BF HT root_l root_r zsq.
  clear - BF HT root_l root_r zsq.
  intros Hc. induction t as [|t IH]; intros Ht b x Hb Hx.
  - change (blk 0) with 1%nat in *. change (wd 0) with 256%nat in *. replace b with 0%nat by lia.
    rewrite Nat.mul_0_r, Nat.add_0_l. cbn [fwd]. rewrite unit_vec_nth by exact Hx.
    rewrite Nat.mod_small, Nat.div_small by exact Hc. destruct (Nat.eqb x c); [|reflexivity]. apply cg_of_eq. reflexivity.
  - cbn [fwd]. destruct (blk_wid t) as [W1 W2]; [lia|].
    assert (W : wd t = (2 * wid t)%nat).
    { unfold wd, wid. replace (8 - t)%nat with (S (7 - t)) by lia. reflexivity. }
    assert (W' : wd (S t) = wid t).
    { unfold wd, wid. f_equal. }
    rewrite W in IH. rewrite W' in *. set (w := wid t) in *. pose proof (blk_le t Ht) as Hle. pose proof (blk_pos t) as Hp. rewrite blk_S in *.
    set (f := fwd t (unit_vec 256 c)) in *.
    assert (Lf : length f = 256%nat) by (apply (Lin_length q 256 (fwd t)); [apply fwd_Lin; lia|apply unit_vec_length]).
    pose proof (Nat.div_mod b 2 ltac:(lia)) as Db. pose proof (Nat.mod_upper_bound b 2 ltac:(lia)) as Mb.
    set (p := (b / 2)%nat) in *. set (h := (b mod 2)%nat) in *. clearbody p h.
    assert (Hp' : (p < blk t)%nat) by lia.
    destruct (flay_nth (blk t) w f W1 W2 Lf p x Hp' Hx) as [F1 F2]. cbv zeta in F1, F2.
    pose proof (IH ltac:(lia) p x Hp' ltac:(lia)) as I1.
    pose proof (IH ltac:(lia) p (x + w)%nat Hp' ltac:(lia)) as I2.
    rewrite Nat.add_assoc in I2.
    assert (Hi : (1 <= blk t + p < blk T)%nat) by lia.
    (* position of c *)
    pose proof (Nat.div_mod c (2 * w) ltac:(lia)) as D2. pose proof (Nat.mod_upper_bound c (2 * w) ltac:(lia)) as M2.
    set (a := (c / (2 * w))%nat) in *. set (x0 := (c mod (2 * w))%nat) in *.
    assert (CW : (c / w = 2 * a + (if Nat.ltb x0 w then 0 else 1) /\ c mod w = (if Nat.ltb x0 w then x0 else x0 - w))%nat).
    { destruct (Nat.ltb_spec x0 w).
      - split; [symmetry; apply (Nat.div_unique c w _ x0); lia|symmetry; apply (Nat.mod_unique c w (2 * a) x0); lia].
      - split; [symmetry; apply (Nat.div_unique c w _ (x0 - w)); lia|symmetry; apply (Nat.mod_unique c w (2 * a + 1) (x0 - w)); lia]. }
    destruct CW as [CW1 CW2]. rewrite CW1, CW2. clear CW1 CW2. clearbody a x0. clear D2 IH.
    pose proof (zsq _ Hi) as SQ. pose proof (cg_pow q _ _ a SQ) as SQP. set (zi := z (blk t + p)) in *.
    assert (EV : cg q (zi ^ Z.of_nat (2 * a)) (root (blk t + p) ^ Z.of_nat a)).
    { rewrite Nat2Z.inj_mul. rewrite Z.pow_mul_r by lia. change (Z.of_nat 2) with 2. rewrite <- SQP. apply cg_of_eq. f_equal. ring. }
    assert (OD : cg q (zi ^ Z.of_nat (2 * a + 1)) (zi * root (blk t + p) ^ Z.of_nat a)).
    { rewrite Nat2Z.inj_add, Z.pow_add_r by lia. rewrite EV. change (Z.of_nat 1) with 1. apply cg_of_eq. ring. }
    assert (NEV : cg q ((- zi) ^ Z.of_nat (2 * a)) (root (blk t + p) ^ Z.of_nat a)).
    { rewrite Nat2Z.inj_mul. rewrite Z.pow_mul_r by lia. change (Z.of_nat 2) with 2. rewrite <- SQP. apply cg_of_eq. f_equal. ring. }
    assert (NOD : cg q ((- zi) ^ Z.of_nat (2 * a + 1)) (- (zi * root (blk t + p) ^ Z.of_nat a))).
    { rewrite Nat2Z.inj_add, Z.pow_add_r by lia. rewrite NEV. change (Z.of_nat 1) with 1. apply cg_of_eq. ring. }
    clear - q F1 F2 I1 I2 EV OD NEV NOD root_l root_r Hi Hx M2 Db Mb.
    destruct (Nat.eq_dec h 0) as [E|E].
    + assert (Eb : b = (2 * p)%nat) by (clear - Db E; lia).
      replace (w * b + x)%nat with (2 * w * p + x)%nat by (rewrite Eb; clear; nia). rewrite F1.
      replace (2 * blk t + b)%nat with (2 * (blk t + p))%nat by (clear - Eb; lia).
      pose proof (root_l _ Hi) as RL. fold zi in RL.
      replace (zi * nthz (2 * w * p + x + w) f) with (1 * zi * nthz (2 * w * p + x + w) f) by ring.
      apply (mono_step q w x x0 a (root (blk t + p) ^ Z.of_nat a)); try assumption.
      * rewrite (cg_pow q _ _ _ RL). exact EV.
      * rewrite (cg_pow q _ _ _ RL), OD. apply cg_of_eq. ring.
    + assert (Eb : b = (2 * p + 1)%nat) by (clear - Db E Mb; lia).
      replace (w * b + x)%nat with (2 * w * p + x + w)%nat by (rewrite Eb; clear; nia). rewrite F2.
      replace (2 * blk t + b)%nat with (2 * (blk t + p) + 1)%nat by (clear - Eb; lia).
      pose proof (root_r _ Hi) as RR. fold zi in RR.
      replace (nthz (2 * w * p + x) f - zi * nthz (2 * w * p + x + w) f) with (nthz (2 * w * p + x) f + -1 * zi * nthz (2 * w * p + x + w) f) by ring.
      apply (mono_step q w x x0 a (root (blk t + p) ^ Z.of_nat a)); try assumption.
      * rewrite (cg_pow q _ _ _ RR). exact NEV.
      * rewrite (cg_pow q _ _ _ RR), NOD. apply cg_of_eq. ring.
Qed.

(** The loops of the models are these layers. *)
Lemma layers_fwd f m : forall t, (t + m <= 8)%nat ->
  layers fstep S (map wid (seq t m)) (blk t) (fwd t f) = fwd (t + m) f.
Proof using.
  clear. induction m as [|m IH]; intros t H.
  - rewrite Nat.add_0_r. reflexivity.
  - cbn [seq map]. rewrite layers_cons. destruct (blk_wid t) as [W1 W2]; [lia|].
    replace (Nat.div 256 (2 * wid t)) with (blk t) by (apply (Nat.div_unique _ _ _ 0); lia).
    rewrite iter_S. replace (blk t + blk t)%nat with (blk (S t)) by (rewrite blk_S; lia).
    change (fst (blocks fstep S (blk t) 0 (wid t) (blk t) (fwd t f))) with (fwd (S t) f).
    rewrite IH by lia. f_equal. lia.
Qed.
Lemma layers_bwd t : (t <= 8)%nat -> forall f, layers gstep pred (map wid (rev (seq 0 t))) (blk t - 1) f = bwd t f.
Proof using.
  clear. induction t as [|t IH]; intros H f; [reflexivity|].
  rewrite seq_S, rev_app_distr. cbn [rev app map Nat.add]. rewrite layers_cons. destruct (blk_wid t) as [W1 W2]; [lia|].
  replace (Nat.div 256 (2 * wid t)) with (blk t) by (apply (Nat.div_unique _ _ _ 0); lia).
  rewrite iter_pred, blk_S. replace (2 * blk t - 1 - blk t)%nat with (blk t - 1)%nat by lia.
  cbn [bwd]. rewrite <- IH by lia. reflexivity.
Qed.
End Transform.
