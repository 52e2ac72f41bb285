(** base_2b, to_int, to_byte and the checksum digits. *)
From Verif Require Import SlhModel LatFacts SlhAdrs.
From Coq Require Import Lia.
Local Open Scope Z_scope.

Lemma pow256 n : 256 ^ Z.of_nat n = 2 ^ (8 * Z.of_nat n).
Proof. rewrite Z.pow_mul_r by lia. reflexivity. Qed.

Lemma horner_shift s t : fold_left (fun t x => Z.shiftl t 8 + x) s t = t * 256 ^ Z.of_nat (length s) + from_be s.
Proof.
  revert t. induction s as [|x s IH] using rev_ind; intro t.
  - cbn [fold_left length]. change (256 ^ Z.of_nat 0) with 1. unfold from_be. cbn [fold_left]. lia.
  - rewrite fold_left_app. cbn [fold_left]. rewrite IH, from_be_app, from_be_one, app_length.
    replace (Z.of_nat (length s + length [x])) with (Z.of_nat (length s) + 1) by (cbn [length]; lia).
    change (Z.of_nat (length [x])) with 1. rewrite Z.shiftl_mul_pow2 by lia. change (2 ^ 8) with 256.
    rewrite Z.pow_add_r by lia. change (256 ^ 1) with 256. ring.
Qed.

Lemma to_int_ok s l : (l <= length s)%nat -> to_int s l = Ok (from_be (firstn l s)).
Proof.
  intro H. unfold to_int. replace (length s <? l)%nat with false by (symmetry; apply Nat.ltb_ge; exact H).
  rewrite horner_shift. rewrite Z.mul_0_l. reflexivity.
Qed.

Lemma fill_ok b : forall s c t, (b <= c + 8 * length s)%nat ->
  exists pre rest, s = pre ++ rest /\ fill b c t s = Ok ((c + 8 * length pre)%nat, t * 256 ^ Z.of_nat (length pre) + from_be pre, rest)
    /\ (b <= c + 8 * length pre)%nat.
Proof.
  induction s as [|x s IH]; intros c t H.
  - cbn [length] in H. cbn [fill]. replace (c <? b)%nat with false by (symmetry; apply Nat.ltb_ge; lia).
    exists [], []. split; [reflexivity|]. cbn [length]. change (256 ^ Z.of_nat 0) with 1. change (from_be []) with 0.
    split; [|lia]. repeat f_equal; lia.
  - cbn [fill]. destruct (c <? b)%nat eqn:E.
    + cbn [length] in H. destruct (IH (c + 8)%nat (Z.shiftl t 8 + x)) as (pre & rest & -> & F & L); [lia|].
      exists (x :: pre), rest. split; [reflexivity|]. cbn [length]. split; [|lia]. rewrite F.
      assert (X : (Z.shiftl t 8 + x) * 256 ^ Z.of_nat (length pre) + from_be pre =
                  t * 256 ^ Z.of_nat (S (length pre)) + from_be (x :: pre)).
      { change (x :: pre) with ([x] ++ pre). rewrite from_be_app, from_be_one.
        rewrite Z.shiftl_mul_pow2 by lia. change (2 ^ 8) with 256.
        replace (Z.of_nat (S (length pre))) with (Z.of_nat (length pre) + 1) by lia.
        rewrite Z.pow_add_r by lia. change (256 ^ 1) with 256. ring. }
      rewrite X. f_equal. f_equal. f_equal. lia.
    + apply Nat.ltb_ge in E. exists [], (x :: s). split; [reflexivity|]. cbn [length].
      change (256 ^ Z.of_nat 0) with 1. change (from_be []) with 0. split; [|lia]. repeat f_equal; lia.
Qed.

Lemma fill_short b : forall s c t, (c + 8 * length s < b)%nat -> fill b c t s = Err EIndexError.
Proof.
  induction s as [|x s IH]; intros c t H; cbn [fill]; cbn [length] in H.
  - replace (c <? b)%nat with true by (symmetry; apply Nat.ltb_lt; lia). reflexivity.
  - replace (c <? b)%nat with true by (symmetry; apply Nat.ltb_lt; lia). apply IH. lia.
Qed.

Lemma mask_mod x b : Z.land x (Z.shiftl 1 (Z.of_nat b) - 1) = x mod 2 ^ Z.of_nat b.
Proof.
  rewrite Z.shiftl_1_l. rewrite <- Z.land_ones by lia. rewrite Z.ones_equiv. reflexivity.
Qed.

Lemma is_bytes_app u v : is_bytes (u ++ v) = true <-> is_bytes u = true /\ is_bytes v = true.
Proof. unfold is_bytes. rewrite forallb_app. apply andb_true_iff. Qed.

(** The bits of [all] from bit position [c'] up, when the bytes after [done] are below it. *)
Lemma top_bits done rest c : is_bytes rest = true -> (c <= 8 * length done)%nat ->
  from_be (done ++ rest) / 2 ^ (8 * Z.of_nat (length (done ++ rest)) - (8 * Z.of_nat (length done) - Z.of_nat c)) =
  from_be done / 2 ^ Z.of_nat c.
Proof.
  intros Hb Hc. rewrite from_be_app, app_length, Nat2Z.inj_add, pow256.
  set (D := from_be done). set (l := Z.of_nat (length rest)). set (L := Z.of_nat (length done)).
  assert (0 <= l /\ 0 <= L /\ 0 <= Z.of_nat c) by (unfold l, L; lia).
  replace (8 * (L + l) - (8 * L - Z.of_nat c)) with (8 * l + Z.of_nat c) by lia.
  rewrite Z.pow_add_r by lia. rewrite <- Z.div_div by (apply Z.pow_nonzero || apply Z.pow_pos_nonneg; lia).
  rewrite Z.div_add_l by (apply Z.pow_nonzero; lia).
  rewrite (Z.div_small (from_be rest)), Z.add_0_r; [reflexivity|].
  pose proof (from_be_bound rest Hb) as B. rewrite pow256 in B. exact B.
Qed.

Lemma loop_ok b out : forall done s c,
  (out * b <= c + 8 * length s)%nat -> (c <= 8 * length done)%nat -> is_bytes s = true ->
  base_2b_loop b out c (from_be done) s =
  Ok (map (fun j => (from_be (done ++ s) / 2 ^ (8 * Z.of_nat (length (done ++ s)) -
         (8 * Z.of_nat (length done) - Z.of_nat c + Z.of_nat b * (Z.of_nat j + 1)))) mod 2 ^ Z.of_nat b) (seq 0 out)).
Proof.
  induction out as [|o IH]; intros done s c H Hc Hb; [reflexivity|].
  cbn [base_2b_loop]. destruct (fill_ok b s c (from_be done)) as (pre & rest & -> & F & L); [lia|].
  rewrite F. cbn [bind]. apply is_bytes_app in Hb. destruct Hb as [Hp Hr].
  rewrite <- from_be_app. rewrite app_length in H.
  rewrite (IH (done ++ pre) rest (c + 8 * length pre - b)%nat); [|lia|rewrite app_length; lia|exact Hr].
  cbn [bind]. rewrite <- cons_seq, <- seq_shift. cbn [map]. rewrite map_map. f_equal. f_equal.
  - rewrite mask_mod. rewrite Z.shiftr_div_pow2 by lia. f_equal.
    rewrite app_assoc.
    rewrite <- (top_bits (done ++ pre) rest (c + 8 * length pre - b)); [|exact Hr|rewrite app_length; lia].
    f_equal. f_equal. f_equal. rewrite app_length. lia.
  - apply map_ext. intro j. rewrite !app_assoc. f_equal. f_equal. f_equal. rewrite !app_length. lia.
Qed.

Lemma base_2b_ok s b out : (out * b <= 8 * length s)%nat -> is_bytes s = true ->
  base_2b s b out =
  Ok (map (fun j => (from_be s / 2 ^ (8 * Z.of_nat (length s) - Z.of_nat b * (Z.of_nat j + 1))) mod 2 ^ Z.of_nat b) (seq 0 out)).
Proof.
  intros H Hb. unfold base_2b. change 0 with (from_be []) at 1.
  rewrite (loop_ok b out [] s 0); [|lia|cbn [length]; lia|exact Hb]. reflexivity.
Qed.

Lemma loop_short b out : forall c t s, (c + 8 * length s < out * b)%nat -> base_2b_loop b out c t s = Err EIndexError.
Proof.
  induction out as [|o IH]; intros c t s H; [lia|].
  cbn [base_2b_loop]. destruct (le_lt_dec b (c + 8 * length s)) as [L|L].
  - destruct (fill_ok b s c t L) as (pre & rest & -> & F & L'). rewrite F. cbn [bind].
    rewrite IH; [reflexivity|]. rewrite app_length in H. lia.
  - rewrite fill_short by exact L. reflexivity.
Qed.

Lemma base_2b_short s b out : (8 * length s < out * b)%nat -> base_2b s b out = Err EIndexError.
Proof. intro H. apply loop_short. exact H. Qed.

(** Without any assumption on the byte values: the digits exist and are in range. *)
Lemma loop_range b out : forall c t s, (out * b <= c + 8 * length s)%nat ->
  exists v, base_2b_loop b out c t s = Ok v /\ length v = out /\ Forall (fun x => 0 <= x < 2 ^ Z.of_nat b) v.
Proof.
  induction out as [|o IH]; intros c t s H; [exists []; repeat constructor|].
  cbn [base_2b_loop]. destruct (fill_ok b s c t) as (pre & rest & -> & F & L); [lia|]. rewrite F. cbn [bind].
  rewrite app_length in H. destruct (IH (c + 8 * length pre - b)%nat (t * 256 ^ Z.of_nat (length pre) + from_be pre) rest)
    as (v & -> & Hl & Hv); [lia|].
  cbn [bind]. eexists. split; [reflexivity|]. split; [cbn [length]; lia|]. constructor; [|exact Hv].
  rewrite mask_mod. apply Z.mod_pos_bound. apply Z.pow_pos_nonneg; lia.
Qed.

Lemma base_2b_range s b out : (out * b <= 8 * length s)%nat ->
  exists v, base_2b s b out = Ok v /\ length v = out /\ Forall (fun x => 0 <= x < 2 ^ Z.of_nat b) v.
Proof. intro H. apply loop_range. exact H. Qed.

(** The digits determine the leading bits. *)
Lemma digits_sum x b : 0 <= b -> forall out, 0 <= x ->
  x mod 2 ^ (b * Z.of_nat out) =
  fold_right Z.add 0 (map (fun j => ((x / 2 ^ (b * (Z.of_nat out - 1 - Z.of_nat j))) mod 2 ^ b) * 2 ^ (b * (Z.of_nat out - 1 - Z.of_nat j))) (seq 0 out)).
Proof.
  intros Hb out Hx. induction out as [|o IH].
  - rewrite Z.mul_0_r. cbn [seq map fold_right]. apply Z.mod_1_r.
  - rewrite <- cons_seq, <- seq_shift. cbn [map fold_right]. rewrite map_map.
    replace (Z.of_nat (S o) - 1 - Z.of_nat 0) with (Z.of_nat o) by lia.
    replace (b * Z.of_nat (S o)) with (b * Z.of_nat o + b) by lia.
    rewrite Z.pow_add_r by nia. rewrite Z.rem_mul_r by (try apply Z.pow_nonzero; try apply Z.pow_pos_nonneg; nia).
    rewrite IH. rewrite Z.add_comm. f_equal; [ring|]. f_equal. apply map_ext. intro j.
    replace (Z.of_nat (S o) - 1 - Z.of_nat (S j)) with (Z.of_nat o - 1 - Z.of_nat j) by lia. reflexivity.
Qed.
