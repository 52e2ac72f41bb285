(** The checksum of WOTS+: the digit vectors of two messages are incomparable. *)
From Verif Require Import SlhModel LatFacts SlhAdrs SlhDigits.
From Coq Require Import Lia.
Local Open Scope Z_scope.

(** Big-endian base-2^b digits. *)
Definition digs (x : Z) (b : Z) (out : nat) : list Z :=
  map (fun j => (x / 2 ^ (b * (Z.of_nat out - 1 - Z.of_nat j))) mod 2 ^ b) (seq 0 out).

Lemma digs_length x b out : length (digs x b out) = out.
Proof. unfold digs. rewrite map_length, seq_length. reflexivity. Qed.

Lemma digs_nth x b out j : (j < out)%nat -> nthz j (digs x b out) = (x / 2 ^ (b * (Z.of_nat out - 1 - Z.of_nat j))) mod 2 ^ b.
Proof. intro H. unfold digs. apply (nthz_map_seq (fun j => (x / 2 ^ (b * (Z.of_nat out - 1 - Z.of_nat j))) mod 2 ^ b)). exact H. Qed.

Lemma sum_mono (f g : nat -> Z) l : (forall j, In j l -> f j <= g j) ->
  fold_right Z.add 0 (map f l) <= fold_right Z.add 0 (map g l).
Proof.
  induction l as [|x l IH]; intro H; cbn [map fold_right]; [lia|].
  pose proof (H x (or_introl eq_refl)). specialize (IH (fun j Hj => H j (or_intror Hj))). lia.
Qed.

(** Digit-wise order implies order. *)
Lemma digs_mono x y b out : 0 <= b -> 0 <= x < 2 ^ (b * Z.of_nat out) -> 0 <= y < 2 ^ (b * Z.of_nat out) ->
  (forall j, (j < out)%nat -> nthz j (digs x b out) <= nthz j (digs y b out)) -> x <= y.
Proof.
  intros Hb Hx Hy H. rewrite <- (Z.mod_small x _ Hx), <- (Z.mod_small y _ Hy).
  rewrite !digits_sum by lia. apply sum_mono. intros j Hj. apply in_seq in Hj.
  apply Z.mul_le_mono_nonneg_r; [apply Z.pow_nonneg; lia|].
  specialize (H j ltac:(lia)). rewrite !digs_nth in H by lia. exact H.
Qed.

Lemma csum_fold (W : Z) v : forall c, fold_left (fun c x => c + (W - 1 - x)) v c = c + fold_right (fun x s => (W - 1 - x) + s) 0 v.
Proof.
  induction v as [|x v IH]; intro c; cbn [fold_left fold_right]; [lia|]. rewrite IH. lia.
Qed.

Definition csum (W : Z) (v : list Z) : Z := fold_right (fun x s => (W - 1 - x) + s) 0 v.

Lemma csum_bound W v : Forall (fun x => 0 <= x < W) v -> 0 <= csum W v <= Z.of_nat (length v) * (W - 1).
Proof.
  induction 1 as [|x v Hx Hv IH]; [cbn; lia|]. unfold csum in *. cbn [fold_right length].
  rewrite Nat2Z.inj_succ. lia.
Qed.

Lemma csum_mono W : forall u v, length u = length v -> (forall j, (j < length u)%nat -> nthz j u <= nthz j v) ->
  csum W v <= csum W u /\ (csum W u <= csum W v -> u = v).
Proof.
  induction u as [|x u IH]; intros [|y v] Hl H; try discriminate; [split; [cbn; lia|reflexivity]|].
  cbn [length] in Hl. destruct (IH v ltac:(lia)) as [A B].
  { intros j Hj. exact (H (S j) ltac:(cbn [length]; lia)). }
  pose proof (H O ltac:(cbn [length]; lia)) as H0. unfold nthz in H0. cbn [nth] in H0.
  unfold csum in *. cbn [fold_right]. split; [lia|]. intro C. f_equal; [lia|apply B; lia].
Qed.

Section S.
Variable p : params.
Hypothesis lg0 : (lg_w p <> 0)%nat.
Hypothesis Hdiv : (len1 p * lg_w p = 8 * n p)%nat.

Let lg := Z.of_nat (lg_w p).

Lemma w_pow : w p = 2 ^ lg. Proof. reflexivity. Qed.

Lemma len2_big : 0 <= Z.of_nat (len1 p) * (w p - 1) < 2 ^ (lg * Z.of_nat (len2 p)).
Proof.
  assert (0 < w p) by (rewrite w_pow; apply Z.pow_pos_nonneg; lia).
  set (x := Z.of_nat (len1 p) * (w p - 1)). assert (Hx : 0 <= x) by (unfold x; nia). split; [exact Hx|].
  unfold len2. fold x. unfold bitlen. destruct (x =? 0) eqn:E.
  - apply Z.eqb_eq in E. rewrite E. apply Z.pow_pos_nonneg; unfold lg; lia.
  - apply Z.eqb_neq in E. pose proof (Z.log2_spec x ltac:(lia)) as [_ L].
    eapply Z.lt_le_trans; [exact L|]. apply Z.pow_le_mono_r; [lia|].
    pose proof (Z.log2_nonneg x).
    set (g := S (Z.to_nat (Z.log2 x))).
    assert (G : (g < lg_w p * (g / lg_w p + 1))%nat).
    { pose proof (Nat.mul_succ_div_gt g (lg_w p) lg0). lia. }
    apply Nat2Z.inj_lt in G. rewrite Nat2Z.inj_mul in G. unfold lg. lia.
Qed.

Definition msg_digits (msg : bytes) : list Z := digs (from_be msg) lg (len1 p).

Lemma digits_len1 msg : length msg = n p -> is_bytes msg = true ->
  base_2b msg (lg_w p) (len1 p) = Ok (msg_digits msg).
Proof.
  intros Hl Hb. rewrite base_2b_ok; [|lia|exact Hb]. f_equal. unfold msg_digits, digs. apply map_ext. intro j.
  fold lg. f_equal. f_equal. f_equal. rewrite Hl.
  assert (lg * Z.of_nat (len1 p) = 8 * Z.of_nat (n p)) by (unfold lg; lia). lia.
Qed.

Lemma msg_digits_range msg : Forall (fun x => 0 <= x < w p) (msg_digits msg).
Proof.
  unfold msg_digits, digs. apply Forall_forall. intros x Hx. apply in_map_iff in Hx. destruct Hx as (j & <- & _).
  rewrite w_pow. apply Z.mod_pos_bound. apply Z.pow_pos_nonneg; unfold lg; lia.
Qed.

Lemma csum_digits C : 0 <= C < 2 ^ (lg * Z.of_nat (len2 p)) ->
  base_2b (to_byte (Z.shiftl C (Z.of_nat (Nat.modulo (8 - Nat.modulo (len2 p * lg_w p) 8) 8))) (Nat.div (len2 p * lg_w p + 7) 8))
          (lg_w p) (len2 p) = Ok (digs C lg (len2 p)).
Proof.
  intro HC. set (s := Nat.modulo (8 - Nat.modulo (len2 p * lg_w p) 8) 8). set (B := Nat.div (len2 p * lg_w p + 7) 8).
  assert (E : (8 * B = len2 p * lg_w p + s)%nat).
  { unfold B, s. set (x := (len2 p * lg_w p)%nat). clearbody x.
    pose proof (Nat.div_mod x 8 ltac:(lia)) as D. pose proof (Nat.mod_upper_bound x 8 ltac:(lia)) as M.
    set (q := (x / 8)%nat) in *. set (r := (x mod 8)%nat) in *. clearbody q r. subst x.
    destruct r as [|r].
    - replace ((8 - 0) mod 8)%nat with 0%nat by reflexivity.
      replace (8 * q + 0 + 7)%nat with (7 + q * 8)%nat by lia. rewrite Nat.div_add by lia.
      replace (7 / 8)%nat with 0%nat by reflexivity. lia.
    - rewrite (Nat.mod_small (8 - S r)) by lia.
      replace (8 * q + S r + 7)%nat with (r + (q + 1) * 8)%nat by lia. rewrite Nat.div_add by lia.
      rewrite (Nat.div_small r) by lia. lia. }
  assert (Hs : (s < 8)%nat) by (apply Nat.mod_upper_bound; lia). clearbody s B.
  unfold to_byte. rewrite base_2b_ok; [|rewrite be_length; lia|apply be_is_bytes].
  rewrite be_length, from_be_be, Z.shiftl_mul_pow2, pow256 by lia.
  assert (E' : 8 * Z.of_nat B = lg * Z.of_nat (len2 p) + Z.of_nat s) by (unfold lg; lia).
  rewrite Z.mod_small; [|rewrite E', Z.pow_add_r by (unfold lg; lia); pose proof (Z.pow_pos_nonneg 2 (Z.of_nat s) ltac:(lia) ltac:(lia)); nia].
  f_equal. unfold digs. apply map_ext_in. intros j Hj. apply in_seq in Hj. fold lg. f_equal. rewrite E'.
  replace (lg * Z.of_nat (len2 p) + Z.of_nat s - lg * (Z.of_nat j + 1)) with (Z.of_nat s + lg * (Z.of_nat (len2 p) - 1 - Z.of_nat j)) by lia.
  rewrite Z.pow_add_r by (unfold lg; nia).
  rewrite <- Z.div_div by (try apply Z.pow_nonzero; try apply Z.pow_pos_nonneg; unfold lg; nia).
  rewrite Z.div_mul by (apply Z.pow_nonzero; lia). reflexivity.
Qed.

Lemma wots_digits_ok msg : length msg = n p -> is_bytes msg = true ->
  wots_digits p msg = Ok (msg_digits msg ++ digs (csum (w p) (msg_digits msg)) lg (len2 p)).
Proof.
  intros Hl Hb. unfold wots_digits. rewrite digits_len1 by assumption. cbn [bind].
  rewrite csum_fold, Z.add_0_l. fold (csum (w p) (msg_digits msg)). rewrite csum_digits; [reflexivity|].
  pose proof (csum_bound (w p) (msg_digits msg) (msg_digits_range msg)) as B. unfold msg_digits in B at 3.
  rewrite digs_length in B. pose proof len2_big. lia.
Qed.

Lemma nthz_app1 (u v : list Z) j : (j < length u)%nat -> nthz j (u ++ v) = nthz j u.
Proof. intro H. unfold nthz. apply app_nth1. exact H. Qed.
Lemma nthz_app2 (u v : list Z) j : nthz (length u + j) (u ++ v) = nthz j v.
Proof. unfold nthz. rewrite app_nth2 by lia. f_equal. lia. Qed.

Lemma wots_incomparable m1 m2 v1 v2 : length m1 = n p -> length m2 = n p -> is_bytes m1 = true -> is_bytes m2 = true ->
  m1 <> m2 -> wots_digits p m1 = Ok v1 -> wots_digits p m2 = Ok v2 ->
  exists i, (i < len p)%nat /\ nthz i v1 < nthz i v2.
Proof.
  intros L1 L2 B1 B2 Hne E1 E2. rewrite wots_digits_ok in E1, E2 by assumption.
  injection E1 as <-. injection E2 as <-.
  set (d1 := msg_digits m1) in *. set (d2 := msg_digits m2) in *.
  set (c1 := csum (w p) d1). set (c2 := csum (w p) d2).
  assert (D1 : length d1 = len1 p) by apply digs_length. assert (D2 : length d2 = len1 p) by apply digs_length.
  assert (Hc : forall v, length v = len1 p -> Forall (fun x => 0 <= x < w p) v -> 0 <= csum (w p) v < 2 ^ (lg * Z.of_nat (len2 p))).
  { intros v Lv Hv. pose proof (csum_bound (w p) v Hv). rewrite Lv in H. pose proof len2_big. lia. }
  pose proof (Hc d1 D1 (msg_digits_range m1)) as C1. pose proof (Hc d2 D2 (msg_digits_range m2)) as C2. fold c1 in C1. fold c2 in C2.
  set (u1 := d1 ++ digs c1 lg (len2 p)). set (u2 := d2 ++ digs c2 lg (len2 p)).
  destruct (Exists_dec (fun i => nthz i u1 < nthz i u2) (seq 0 (len p)) (fun i => Z_lt_dec (nthz i u1) (nthz i u2))) as [Ex|Nex].
  - apply Exists_exists in Ex. destruct Ex as (i & Hi & Hlt). apply in_seq in Hi. exists i. split; [lia|exact Hlt].
  - exfalso. apply Hne.
    assert (N : forall i, (i < len p)%nat -> nthz i u2 <= nthz i u1).
    { intros i Hi. destruct (Z_lt_dec (nthz i u1) (nthz i u2)) as [H|H]; [|lia]. exfalso. apply Nex. apply Exists_exists.
      exists i. split; [apply in_seq; lia|exact H]. }
    assert (Q : c2 <= c1).
    { apply (digs_mono c2 c1 lg (len2 p)); [unfold lg; lia|exact C2|exact C1|]. intros j Hj.
      specialize (N (len1 p + j)%nat ltac:(unfold len; lia)). unfold u1, u2 in N.
      rewrite <- D1 in N at 2. rewrite <- D2 in N at 1. rewrite !nthz_app2 in N. exact N. }
    destruct (csum_mono (w p) d2 d1) as [_ X]; [lia| |].
    { intros j Hj. specialize (N j ltac:(unfold len; lia)). unfold u1, u2 in N.
      rewrite !nthz_app1 in N by lia. exact N. }
    specialize (X Q).
    assert (FE : from_be m1 = from_be m2).
    { pose proof (from_be_bound m1 B1) as Y1. pose proof (from_be_bound m2 B2) as Y2. rewrite L1 in Y1. rewrite L2 in Y2.
      rewrite pow256 in Y1, Y2. assert (P : 8 * Z.of_nat (n p) = lg * Z.of_nat (len1 p)) by (unfold lg; lia).
      rewrite P in Y1, Y2.
      assert (forall j, nthz j d1 = nthz j d2) by (intro; rewrite X; reflexivity).
      apply Z.le_antisymm; apply (digs_mono _ _ lg (len1 p)); try assumption; try (unfold lg; lia);
        intros j _; apply Z.eq_le_incl; [|symmetry]; apply H. }
    rewrite <- (be_from_be m1 B1), <- (be_from_be m2 B2), FE, L1, L2. reflexivity.
Qed.
End S.
