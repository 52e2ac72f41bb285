(** Sums, matrices, bit packing, encoding and sampling of the FrodoKEM model. *)

From Coq Require Import Arith ZArith List Bool Lia.
From Verif Require Import Prelude PreludeFacts FrodoModel FrodoSpec.
Import ListNotations.
Open Scope Z_scope.

(** * Sums *)

Lemma fold_sum (f : nat -> Z) : forall n a m,
  fold_left (fun acc k => acc + f k) (seq m n) a = a + sigma n (fun k => f (m + k)%nat).
Proof.
  induction n as [|n IH]; intros a m.
  - simpl. lia.
  - rewrite seq_S, fold_left_app, IH. simpl. lia.
Qed.

Lemma sum_range_sigma n f : sum_range n f = sigma n f.
Proof.
  unfold sum_range. rewrite fold_sum. simpl.
  assert (H : forall m, sigma m (fun k => f (0 + k)%nat) = sigma m f).
  { induction m; simpl; [reflexivity|]. rewrite <- IHm. reflexivity. }
  rewrite H. lia.
Qed.

Lemma sigma_ext n f g : (forall k, (k < n)%nat -> f k = g k) -> sigma n f = sigma n g.
Proof.
  induction n as [|n IH]; intros H; simpl; [reflexivity|].
  rewrite IH by (intros; apply H; lia). rewrite H by lia. reflexivity.
Qed.

Lemma sigma_add n f g : sigma n (fun k => f k + g k) = sigma n f + sigma n g.
Proof. induction n as [|n IH]; simpl; [reflexivity|]. rewrite IH. lia. Qed.

Lemma sigma_sub n f g : sigma n (fun k => f k - g k) = sigma n f - sigma n g.
Proof. induction n as [|n IH]; simpl; [reflexivity|]. rewrite IH. lia. Qed.

Lemma sigma_scale_l n c f : sigma n (fun k => c * f k) = c * sigma n f.
Proof. induction n as [|n IH]; simpl; [lia|]. rewrite IH. lia. Qed.

Lemma sigma_scale_r n c f : sigma n (fun k => f k * c) = sigma n f * c.
Proof. induction n as [|n IH]; simpl; [lia|]. rewrite IH. lia. Qed.

Lemma sigma_0 n : sigma n (fun _ => 0) = 0.
Proof. induction n as [|n IH]; simpl; [reflexivity|]. rewrite IH. reflexivity. Qed.

Lemma sigma_const n c : sigma n (fun _ => c) = Z.of_nat n * c.
Proof. induction n as [|n IH]; [reflexivity|]. simpl sigma. rewrite IH, Nat2Z.inj_succ. lia. Qed.

Lemma sigma_swap n m f :
  sigma n (fun i => sigma m (fun j => f i j)) = sigma m (fun j => sigma n (fun i => f i j)).
Proof.
  induction n as [|n IH]; simpl.
  - rewrite sigma_0. reflexivity.
  - rewrite IH, <- sigma_add. reflexivity.
Qed.

Lemma sigma_shift n f : sigma (S n) f = f O + sigma n (fun k => f (S k)).
Proof. induction n as [|n IH]; [simpl; lia|]. simpl in *. rewrite IH. lia. Qed.

Lemma sigma_rev n : forall f, sigma n f = sigma n (fun k => f (n - 1 - k)%nat).
Proof.
  induction n as [|n IH]; intros f; [reflexivity|].
  rewrite (sigma_shift n (fun k => f (S n - 1 - k)%nat)). simpl sigma at 1.
  rewrite (IH f). replace (S n - 1 - 0)%nat with n by lia.
  rewrite Z.add_comm. f_equal. apply sigma_ext. intros k Hk. f_equal. lia.
Qed.

Lemma sigma_mod n f g q : (forall k, (k < n)%nat -> f k mod q = g k mod q) ->
  sigma n f mod q = sigma n g mod q.
Proof.
  induction n as [|n IH]; intros H; simpl; [reflexivity|].
  rewrite Zplus_mod, IH, (H n) by (try lia; intros; apply H; lia).
  rewrite <- Zplus_mod. reflexivity.
Qed.

(** * Matrices *)

Lemma build_length n1 n2 f : length (build n1 n2 f) = n1.
Proof. unfold build. rewrite map_length, seq_length. reflexivity. Qed.

Lemma nth_build n1 n2 f i : (i < n1)%nat ->
  nth i (build n1 n2 f) [] = map (fun j => f i j) (seq 0 n2).
Proof.
  intros Hi. unfold build.
  rewrite nth_indep with (d' := map (fun j => f 0%nat j) (seq 0 n2))
    by (rewrite map_length, seq_length; lia).
  rewrite (map_nth (fun i => map (fun j => f i j) (seq 0 n2))).
  rewrite seq_nth by lia. reflexivity.
Qed.

Lemma at_build n1 n2 f i j : (i < n1)%nat -> (j < n2)%nat -> at_ (build n1 n2 f) i j = f i j.
Proof.
  intros Hi Hj. unfold at_. rewrite nth_build by lia.
  rewrite nth_indep with (d' := f i 0%nat) by (rewrite map_length, seq_length; lia).
  rewrite (map_nth (fun j => f i j)), seq_nth by lia. reflexivity.
Qed.

Lemma build_mat n1 n2 f : is_mat n1 n2 (build n1 n2 f).
Proof.
  split; [apply build_length|]. intros r Hr. unfold build in Hr.
  apply in_map_iff in Hr. destruct Hr as (i & <- & _). rewrite map_length, seq_length. reflexivity.
Qed.

Lemma build_ext n1 n2 f g :
  (forall i j, (i < n1)%nat -> (j < n2)%nat -> f i j = g i j) -> build n1 n2 f = build n1 n2 g.
Proof.
  intros H. unfold build. apply map_ext_in. intros i Hi. apply map_ext_in. intros j Hj.
  apply in_seq in Hi. apply in_seq in Hj. apply H; lia.
Qed.

Lemma list_as_map {A} (d : A) (l : list A) : l = map (fun i => nth i l d) (seq 0 (length l)).
Proof.
  induction l as [|a l IH]; [reflexivity|]. simpl. f_equal.
  rewrite IH at 1. rewrite <- seq_shift, map_map. reflexivity.
Qed.

Lemma mat_build n1 n2 M : is_mat n1 n2 M -> M = build n1 n2 (at_ M).
Proof.
  intros (HL & HR). unfold build. rewrite (list_as_map [] M) at 1. rewrite HL.
  apply map_ext_in. intros i Hi. apply in_seq in Hi.
  rewrite (list_as_map 0 (nth i M [])) at 1.
  rewrite HR by (apply nth_In; lia). reflexivity.
Qed.

Lemma mat_ext n1 n2 M N : is_mat n1 n2 M -> is_mat n1 n2 N ->
  (forall i j, (i < n1)%nat -> (j < n2)%nat -> at_ M i j = at_ N i j) -> M = N.
Proof.
  intros HM HN H. rewrite (mat_build _ _ _ HM), (mat_build _ _ _ HN). apply build_ext, H.
Qed.

Lemma build_inj n1 n2 f g : build n1 n2 f = build n1 n2 g ->
  forall i j, (i < n1)%nat -> (j < n2)%nat -> f i j = g i j.
Proof.
  intros H i j Hi Hj. rewrite <- (at_build n1 n2 f i j), <- (at_build n1 n2 g i j) by lia.
  rewrite H. reflexivity.
Qed.

Lemma at_entries n1 n2 M Q : is_mat n1 n2 M -> entries Q M ->
  forall i j, (i < n1)%nat -> (j < n2)%nat -> Q (at_ M i j).
Proof.
  intros (HL & HR) HE i j Hi Hj. unfold at_.
  assert (Hin : In (nth i M []) M) by (apply nth_In; lia).
  apply (HE _ _ Hin). apply nth_In. rewrite HR by assumption. lia.
Qed.

Lemma build_entries n1 n2 f (Q : Z -> Prop) :
  (forall i j, (i < n1)%nat -> (j < n2)%nat -> Q (f i j)) -> entries Q (build n1 n2 f).
Proof.
  intros H r x Hr Hx. unfold build in Hr. apply in_map_iff in Hr. destruct Hr as (i & <- & Hi).
  apply in_map_iff in Hx. destruct Hx as (j & <- & Hj).
  apply in_seq in Hi. apply in_seq in Hj. apply H; lia.
Qed.

Lemma ncols_mat n1 n2 M : is_mat n1 n2 M -> (0 < n1)%nat -> ncols M = Ok n2.
Proof.
  intros (HL & HR) H. destruct M as [|r M]; simpl in *; [lia|].
  rewrite HR by (left; reflexivity). reflexivity.
Qed.

Lemma mul_ok P a b c X Y : is_mat a b X -> is_mat b c Y -> (0 < a)%nat -> (0 < b)%nat ->
  matrix_mul P X Y =
  Ok (build a c (fun i j => sigma b (fun k => at_ X i k * at_ Y k j) mod p_q P)).
Proof.
  intros HX HY Ha Hb. unfold matrix_mul.
  rewrite (ncols_mat _ _ _ HX), (ncols_mat _ _ _ HY) by assumption. cbn [bind].
  destruct HX as (HX & _). destruct HY as (HY & _). rewrite HX, HY, Nat.eqb_refl. cbn [guard bind].
  f_equal. apply build_ext. intros. rewrite sum_range_sigma. reflexivity.
Qed.

Lemma add_ok P a b X Y : is_mat a b X -> is_mat a b Y -> (0 < a)%nat ->
  matrix_add P X Y = Ok (build a b (fun i j => (at_ X i j + at_ Y i j) mod p_q P)).
Proof.
  intros HX HY Ha. unfold matrix_add.
  rewrite (ncols_mat _ _ _ HX), (ncols_mat _ _ _ HY) by assumption. cbn [bind].
  destruct HX as (HX & _). destruct HY as (HY & _). rewrite HX, HY, !Nat.eqb_refl. reflexivity.
Qed.

Lemma sub_ok P a b X Y : is_mat a b X -> is_mat a b Y -> (0 < a)%nat ->
  matrix_sub P X Y = Ok (build a b (fun i j => (at_ X i j - at_ Y i j) mod p_q P)).
Proof.
  intros HX HY Ha. unfold matrix_sub.
  rewrite (ncols_mat _ _ _ HX), (ncols_mat _ _ _ HY) by assumption. cbn [bind].
  destruct HX as (HX & _). destruct HY as (HY & _). rewrite HX, HY, !Nat.eqb_refl. reflexivity.
Qed.

Lemma transpose_ok a b X : is_mat a b X -> (0 < a)%nat ->
  matrix_transpose X = Ok (build b a (fun i j => at_ X j i)).
Proof.
  intros HX Ha. unfold matrix_transpose. rewrite (ncols_mat _ _ _ HX) by assumption.
  destruct HX as (HX & _). rewrite HX. reflexivity.
Qed.

(** * Numbers from bits *)

Definition val (n : nat) (b : nat -> bool) : Z :=
  sigma n (fun l => if b l then 2 ^ Z.of_nat l else 0).

Lemma pow2_pos n : 0 < 2 ^ Z.of_nat n.
Proof. apply Z.pow_pos_nonneg; lia. Qed.

Lemma pow2_S n : 2 ^ Z.of_nat (S n) = 2 * 2 ^ Z.of_nat n.
Proof. rewrite Nat2Z.inj_succ, Z.pow_succ_r by lia. reflexivity. Qed.

Lemma val_bound n b : 0 <= val n b < 2 ^ Z.of_nat n.
Proof.
  unfold val. induction n as [|n IH]; [simpl; lia|]. simpl sigma. rewrite pow2_S.
  pose proof (pow2_pos n). destruct (b n); lia.
Qed.

Lemma val_testbit n b l : (l < n)%nat -> Z.testbit (val n b) (Z.of_nat l) = b l.
Proof.
  unfold val. revert l. induction n as [|n IH]; intros l Hl; [lia|]. simpl sigma.
  pose proof (val_bound n b) as Hb. unfold val in Hb. pose proof (pow2_pos n).
  destruct (Nat.eq_dec l n) as [->|Hne].
  - set (v := sigma n _) in *. destruct (b n).
    + apply Z.testbit_true; [lia|].
      replace (v + 2 ^ Z.of_nat n) with (v + 1 * 2 ^ Z.of_nat n) by lia.
      rewrite Z.div_add by lia. rewrite Z.div_small by lia. reflexivity.
    + apply Z.testbit_false; [lia|]. rewrite Z.add_0_r, Z.div_small by lia. reflexivity.
  - rewrite <- (IH l) by lia. set (v := sigma n _) in *.
    rewrite <- (Z.mod_pow2_bits_low (v + _) (Z.of_nat n)) by lia.
    f_equal. destruct (b n).
    + replace (v + 2 ^ Z.of_nat n) with (v + 1 * 2 ^ Z.of_nat n) by lia.
      rewrite Z_mod_plus_full. apply Z.mod_small. lia.
    + rewrite Z.add_0_r. apply Z.mod_small. lia.
Qed.

Lemma val_ext n b c : (forall l, (l < n)%nat -> b l = c l) -> val n b = val n c.
Proof. intros H. apply sigma_ext. intros. rewrite H by assumption. reflexivity. Qed.

Lemma bits_eq n x y : 0 <= x < 2 ^ Z.of_nat n -> 0 <= y < 2 ^ Z.of_nat n ->
  (forall l, (l < n)%nat -> Z.testbit x (Z.of_nat l) = Z.testbit y (Z.of_nat l)) -> x = y.
Proof.
  intros Hx Hy H. apply Z.bits_inj'. intros l Hl.
  destruct (Z_lt_le_dec l (Z.of_nat n)) as [Hlt|Hge].
  - specialize (H (Z.to_nat l)). rewrite Z2Nat.id in H by lia. apply H. lia.
  - rewrite <- (Z.mod_small x (2 ^ Z.of_nat n)), <- (Z.mod_small y (2 ^ Z.of_nat n)) by lia.
    rewrite !Z.mod_pow2_bits_high by lia. reflexivity.
Qed.

Lemma val_of_testbit n x : val n (fun l => Z.testbit x (Z.of_nat l)) = x mod 2 ^ Z.of_nat n.
Proof.
  pose proof (pow2_pos n). apply (bits_eq n).
  - apply val_bound.
  - apply Z.mod_pos_bound. lia.
  - intros l Hl. rewrite val_testbit by assumption. rewrite Z.mod_pow2_bits_low by lia. reflexivity.
Qed.

Lemma val_rev n (b : nat -> bool) :
  sigma n (fun l => if b l then 2 ^ Z.of_nat (n - 1 - l) else 0) = val n (fun l => b (n - 1 - l)%nat).
Proof.
  unfold val. rewrite sigma_rev. apply sigma_ext. intros l Hl.
  replace (n - 1 - (n - 1 - l))%nat with l by lia. reflexivity.
Qed.

(** * Byte strings as bit strings *)

Lemma is_bytes_nth b i : is_bytes b = true -> 0 <= nth i b 0 < 256.
Proof.
  intros H. destruct (Nat.lt_ge_cases i (length b)) as [Hi|Hi].
  - unfold is_bytes in H. rewrite forallb_forall in H. specialize (H _ (nth_In b 0 Hi)).
    unfold is_byte in H. lia.
  - rewrite nth_overflow by lia. lia.
Qed.

Lemma nth_bytes_of_be b i : (i < length b / 8)%nat ->
  nth i (bytes_of_be_bits b) 0 = val 8 (fun l => nth (8 * i + (7 - l)) b false).
Proof.
  intros Hi. unfold bytes_of_be_bits.
  erewrite nth_indep by (rewrite map_length, seq_length; exact Hi).
  rewrite (map_nth (fun i => sum_range 8
    (fun l => if nth (8 * i + l) b false then 2 ^ Z.of_nat (7 - l) else 0)) _ 0%nat).
  rewrite seq_nth by assumption. rewrite sum_range_sigma. simpl Nat.add at 2.
  exact (val_rev 8 (fun l => nth (8 * i + l) b false)).
Qed.

Lemma div8 x : (x = 8 * (x / 8) + x mod 8)%nat.
Proof. apply Nat.div_mod. lia. Qed.

Lemma mod8 x : (x mod 8 < 8)%nat.
Proof. apply Nat.mod_upper_bound. lia. Qed.

Lemma be_bit_bytes b x : (length b mod 8 = 0)%nat -> (x < length b)%nat ->
  be_bit (bytes_of_be_bits b) x = nth x b false.
Proof.
  intros H8 Hx. unfold be_bit. pose proof (div8 x). pose proof (mod8 x). pose proof (div8 (length b)).
  rewrite nth_bytes_of_be by lia. rewrite val_testbit by lia. f_equal. lia.
Qed.

Lemma bytes_of_be_length b : length (bytes_of_be_bits b) = (length b / 8)%nat.
Proof. unfold bytes_of_be_bits. rewrite map_length, seq_length. reflexivity. Qed.

Lemma is_bytes_intro b : (forall i, (i < length b)%nat -> 0 <= nth i b 0 < 256) -> is_bytes b = true.
Proof.
  intros H. unfold is_bytes. apply forallb_forall. intros x Hx.
  destruct (In_nth b x 0 Hx) as (i & Hi & <-). specialize (H i Hi). unfold is_byte. lia.
Qed.

Lemma bytes_of_be_bytes b : is_bytes (bytes_of_be_bits b) = true.
Proof.
  apply is_bytes_intro. intros i Hi. rewrite bytes_of_be_length in Hi.
  rewrite nth_bytes_of_be by assumption. exact (val_bound 8 _).
Qed.

Lemma list_ext {A} (d : A) (a b : list A) : length a = length b ->
  (forall i, (i < length a)%nat -> nth i a d = nth i b d) -> a = b.
Proof. intros HL H. apply (nth_ext a b d d HL H). Qed.

Lemma be_bits_eq a b : is_bytes a = true -> is_bytes b = true -> length a = length b ->
  (forall x, (x < 8 * length a)%nat -> be_bit a x = be_bit b x) -> a = b.
Proof.
  intros Ha Hb HL H. apply (list_ext 0 _ _ HL). intros i Hi.
  apply (bits_eq 8); [exact (is_bytes_nth a i Ha)|exact (is_bytes_nth b i Hb)|].
  intros l Hl. specialize (H (8 * i + (7 - l))%nat ltac:(lia)). unfold be_bit in H.
  replace ((8 * i + (7 - l)) / 8)%nat with i in H
    by (apply (Nat.div_unique _ 8 i (7 - l)); lia).
  replace ((8 * i + (7 - l)) mod 8)%nat with (7 - l)%nat in H
    by (apply (Nat.mod_unique _ 8 i (7 - l)); lia).
  replace (7 - (7 - l))%nat with l in H by lia. exact H.
Qed.

Lemma le_bits_eq a b : is_bytes a = true -> is_bytes b = true -> length a = length b ->
  (forall x, (x < 8 * length a)%nat -> le_bit a x = le_bit b x) -> a = b.
Proof.
  intros Ha Hb HL H. apply (list_ext 0 _ _ HL). intros i Hi.
  apply (bits_eq 8); [exact (is_bytes_nth a i Ha)|exact (is_bytes_nth b i Hb)|].
  intros l Hl. specialize (H (8 * i + l)%nat ltac:(lia)). unfold le_bit in H.
  replace ((8 * i + l) / 8)%nat with i in H by (apply (Nat.div_unique _ 8 i l); lia).
  replace ((8 * i + l) mod 8)%nat with l in H by (apply (Nat.mod_unique _ 8 i l); lia).
  exact H.
Qed.

Lemma bytes_of_le_length n b : length (bytes_of_le_bits n b) = (n / 8)%nat.
Proof. unfold bytes_of_le_bits. rewrite map_length, seq_length. reflexivity. Qed.

Lemma nth_bytes_of_le n b i : (i < n / 8)%nat ->
  nth i (bytes_of_le_bits n b) 0 = val 8 (fun l => b (8 * i + l)%nat).
Proof.
  intros Hi. unfold bytes_of_le_bits.
  erewrite nth_indep by (rewrite map_length, seq_length; exact Hi).
  rewrite (map_nth (fun i => sum_range 8 (fun l => if b (8 * i + l)%nat then 2 ^ Z.of_nat l else 0)) _ 0%nat).
  rewrite seq_nth by assumption. rewrite sum_range_sigma. reflexivity.
Qed.

Lemma bytes_of_le_bytes n b : is_bytes (bytes_of_le_bits n b) = true.
Proof.
  apply is_bytes_intro. intros i Hi. rewrite bytes_of_le_length in Hi.
  rewrite nth_bytes_of_le by assumption. exact (val_bound 8 _).
Qed.

Lemma le_bit_bytes n b x : (x < 8 * (n / 8))%nat -> le_bit (bytes_of_le_bits n b) x = b x.
Proof.
  intros Hx. unfold le_bit. pose proof (div8 x). pose proof (mod8 x).
  rewrite nth_bytes_of_le by lia. rewrite val_testbit by lia. f_equal. lia.
Qed.

(** * Packing *)

Lemma flat_map_length_const {A C} (f : A -> list C) w l :
  (forall a, In a l -> length (f a) = w) -> length (flat_map f l) = (length l * w)%nat.
Proof.
  induction l as [|a l IH]; intros H; [reflexivity|]. simpl.
  rewrite app_length, H, IH by (try (left; reflexivity); intros; apply H; right; assumption).
  reflexivity.
Qed.

Lemma nth_flat_map {A C} (f : A -> list C) w (d : C) (da : A) : forall l i r,
  (forall a, In a l -> length (f a) = w) -> (i < length l)%nat -> (r < w)%nat ->
  nth (i * w + r) (flat_map f l) d = nth r (f (nth i l da)) d.
Proof.
  induction l as [|a l IH]; intros i r H Hi Hr; [simpl in Hi; lia|].
  simpl flat_map. assert (Ha : length (f a) = w) by (apply H; left; reflexivity).
  destruct i as [|i].
  - simpl. apply app_nth1. lia.
  - rewrite app_nth2 by (rewrite Ha; simpl; lia). rewrite Ha.
    replace (S i * w + r - w)%nat with (i * w + r)%nat by (simpl; lia).
    rewrite IH by (try (intros; apply H; right; assumption); simpl in Hi; lia). reflexivity.
Qed.

Lemma entry_bits_length P c : length (entry_bits P c) = p_D P.
Proof. unfold entry_bits. rewrite map_length, seq_length. reflexivity. Qed.

Lemma nth_entry_bits P c l : (l < p_D P)%nat ->
  nth l (entry_bits P c) false = Z.testbit c (Z.of_nat (p_D P - 1 - l)).
Proof.
  intros Hl. unfold entry_bits.
  erewrite nth_indep by (rewrite map_length, seq_length; exact Hl).
  rewrite (map_nth (fun l => Z.testbit c (Z.of_nat (p_D P - 1 - l))) _ 0%nat).
  rewrite seq_nth by assumption. reflexivity.
Qed.

(** The bit string [pack] assembles. *)
Definition bits_of (P : params) (C : matrix) : list bool :=
  flat_map (fun r => flat_map (entry_bits P) r) C.

Definition packed (P : params) (C : matrix) : bytes := bytes_of_be_bits (bits_of P C).

Lemma row_bits_length P n2 C r : (forall r, In r C -> length r = n2) -> In r C ->
  length (flat_map (entry_bits P) r) = (n2 * p_D P)%nat.
Proof.
  intros H Hr. rewrite (flat_map_length_const _ (p_D P)) by (intros; apply entry_bits_length).
  rewrite H by assumption. reflexivity.
Qed.

Lemma bits_of_length P n1 n2 C : is_mat n1 n2 C -> length (bits_of P C) = (n1 * (n2 * p_D P))%nat.
Proof.
  intros (HL & HR). unfold bits_of.
  rewrite (flat_map_length_const _ (n2 * p_D P)%nat), HL; [reflexivity|].
  intros r Hr. apply (row_bits_length P n2 C); assumption.
Qed.

Lemma nth_bits_of P n1 n2 C i j l : is_mat n1 n2 C -> (i < n1)%nat -> (j < n2)%nat -> (l < p_D P)%nat ->
  nth ((i * n2 + j) * p_D P + l) (bits_of P C) false =
  Z.testbit (at_ C i j) (Z.of_nat (p_D P - 1 - l)).
Proof.
  intros (HL & HR) Hi Hj Hl. unfold bits_of.
  replace ((i * n2 + j) * p_D P + l)%nat with (i * (n2 * p_D P) + (j * p_D P + l))%nat by ring.
  assert (Hin : In (nth i C []) C) by (apply nth_In; lia).
  assert (Hw : (j * p_D P + l < n2 * p_D P)%nat) by nia.
  rewrite (nth_flat_map _ (n2 * p_D P)%nat false []); [|intros r Hr; apply (row_bits_length P n2 C); assumption|lia|exact Hw].
  rewrite (nth_flat_map _ (p_D P) false 0) by (try (intros; apply entry_bits_length); rewrite ?HR by assumption; lia).
  rewrite nth_entry_bits by assumption. reflexivity.
Qed.

Lemma pack_ok P n1 n2 C : is_mat n1 n2 C -> (0 < n1)%nat -> ((n1 * (n2 * p_D P)) mod 8 = 0)%nat ->
  pack P C = Ok (packed P C).
Proof.
  intros HM Hn1 H8. unfold pack. rewrite (ncols_mat _ _ _ HM) by assumption. cbn [bind].
  destruct HM as (HL & HR).
  assert (HF : forallb (fun r => (n2 <=? length r)%nat) C = true).
  { apply forallb_forall. intros r Hr. rewrite HR by assumption. apply Nat.leb_refl. }
  rewrite HF. cbn [guard bind].
  assert (HE : flat_map (fun r => flat_map (entry_bits P) (firstn n2 r)) C = bits_of P C).
  { unfold bits_of. rewrite !flat_map_concat_map. f_equal. apply map_ext_in. intros r Hr.
    rewrite <- (HR r Hr), firstn_all. reflexivity. }
  rewrite HE. rewrite (bits_of_length P n1 n2) by (split; assumption). rewrite H8. reflexivity.
Qed.

Lemma packed_length P n1 n2 C : is_mat n1 n2 C ->
  length (packed P C) = ((n1 * (n2 * p_D P)) / 8)%nat.
Proof.
  intros HM. unfold packed. rewrite bytes_of_be_length, (bits_of_length P n1 n2) by assumption. reflexivity.
Qed.

Lemma packed_bytes P C : is_bytes (packed P C) = true.
Proof. apply bytes_of_be_bytes. Qed.

Lemma packed_bit P n1 n2 C i j l : is_mat n1 n2 C -> ((n1 * (n2 * p_D P)) mod 8 = 0)%nat ->
  (i < n1)%nat -> (j < n2)%nat -> (l < p_D P)%nat ->
  be_bit (packed P C) ((i * n2 + j) * p_D P + l) = Z.testbit (at_ C i j) (Z.of_nat (p_D P - 1 - l)).
Proof.
  intros HM H8 Hi Hj Hl. unfold packed. rewrite be_bit_bytes.
  - apply (nth_bits_of P n1); assumption.
  - rewrite (bits_of_length P n1 n2) by assumption. exact H8.
  - rewrite (bits_of_length P n1 n2) by assumption.
    assert ((i * n2 + j < n1 * n2)%nat) by nia. nia.
Qed.

(** Entry [x] of an unpacked string. *)
Definition unpacked_at (P : params) (b : bytes) (x : nat) : Z :=
  val (p_D P) (fun l => be_bit b (x * p_D P + (p_D P - 1 - l))).

Definition unpacked (P : params) (b : bytes) (n1 n2 : nat) : matrix :=
  build n1 n2 (fun i j => unpacked_at P b (i * n2 + j)).

Lemma unpack_ok P b n1 n2 : (p_D P * n1 * n2 <= 8 * length b)%nat ->
  unpack P b n1 n2 = Ok (unpacked P b n1 n2).
Proof.
  intros H. unfold unpack. apply Nat.leb_le in H. rewrite H. cbn [guard bind]. f_equal.
  apply build_ext. intros i j _ _. rewrite sum_range_sigma. unfold unpacked_at.
  exact (val_rev (p_D P) (fun l => be_bit b ((i * n2 + j) * p_D P + l))).
Qed.

Lemma unpacked_range P b x : 0 <= unpacked_at P b x < 2 ^ Z.of_nat (p_D P).
Proof. apply val_bound. Qed.

Lemma unpacked_packed P n1 n2 C : is_mat n1 n2 C -> ((n1 * (n2 * p_D P)) mod 8 = 0)%nat ->
  unpacked P (packed P C) n1 n2 = build n1 n2 (fun i j => at_ C i j mod 2 ^ Z.of_nat (p_D P)).
Proof.
  intros HM H8. apply build_ext. intros i j Hi Hj. unfold unpacked_at.
  rewrite <- val_of_testbit. apply val_ext. intros l Hl.
  rewrite (packed_bit P n1) by (assumption || lia). do 2 f_equal. lia.
Qed.

Lemma unpacked_bit P b x l : (l < p_D P)%nat ->
  Z.testbit (unpacked_at P b x) (Z.of_nat (p_D P - 1 - l)) = be_bit b (x * p_D P + l).
Proof.
  intros Hl. unfold unpacked_at. rewrite val_testbit by lia. f_equal. lia.
Qed.

Lemma packed_unpacked P b n1 n2 : (p_D P * n1 * n2 = 8 * length b)%nat -> is_bytes b = true ->
  packed P (unpacked P b n1 n2) = b.
Proof.
  intros HL Hb.
  assert (E8 : (n1 * (n2 * p_D P) = 8 * length b)%nat) by lia.
  assert (H8 : ((n1 * (n2 * p_D P)) mod 8 = 0)%nat)
    by (rewrite E8, Nat.mul_comm; apply Nat.mod_mul; lia).
  assert (HM : is_mat n1 n2 (unpacked P b n1 n2)) by apply build_mat.
  apply be_bits_eq; [apply packed_bytes|assumption| |].
  - rewrite (packed_length P n1 n2) by assumption. rewrite E8, Nat.mul_comm. apply Nat.div_mul. lia.
  - intros x Hx. rewrite (packed_length P n1 n2) in Hx by assumption.
    assert (Hx' : (x < n1 * (n2 * p_D P))%nat) by (pose proof (div8 (n1 * (n2 * p_D P))); lia).
    set (D := p_D P) in *. assert (D <> 0)%nat by nia. assert (n2 <> 0)%nat by nia.
    pose proof (Nat.div_mod x D ltac:(assumption)) as E1.
    pose proof (Nat.mod_upper_bound x D ltac:(assumption)) as B1.
    pose proof (Nat.div_mod (x / D) n2 ltac:(assumption)) as E2.
    pose proof (Nat.mod_upper_bound (x / D) n2 ltac:(assumption)) as B2.
    set (i := (x / D / n2)%nat) in *. set (j := ((x / D) mod n2)%nat) in *. set (l := (x mod D)%nat) in *.
    assert (Hi : (i < n1)%nat).
    { unfold i. apply Nat.div_lt_upper_bound; [assumption|].
      apply Nat.div_lt_upper_bound; [assumption|]. lia. }
    assert (Ex : x = ((i * n2 + j) * D + l)%nat) by (rewrite E1 at 1; rewrite E2; ring).
    rewrite Ex. unfold D. rewrite (packed_bit P n1) by assumption.
    unfold unpacked. rewrite at_build by assumption. apply unpacked_bit. assumption.
Qed.

Theorem pack_unpack P n1 n2 C : (0 < n1)%nat -> ((n1 * n2 * p_D P) mod 8 = 0)%nat -> is_mat n1 n2 C ->
  exists b, pack P C = Ok b /\ length b = (n1 * n2 * p_D P / 8)%nat /\ is_bytes b = true /\
    unpack P b n1 n2 = Ok (map (map (fun x => x mod 2 ^ Z.of_nat (p_D P))) C).
Proof.
  intros Hn H8 HM. replace (n1 * n2 * p_D P)%nat with (n1 * (n2 * p_D P))%nat in * by ring.
  exists (packed P C). split; [apply (pack_ok P n1 n2); assumption|].
  split; [apply packed_length; assumption|]. split; [apply packed_bytes|].
  rewrite unpack_ok.
  - rewrite unpacked_packed by assumption. f_equal. symmetry.
    apply (mat_ext n1 n2); [|apply build_mat|].
    + destruct HM as (HL & HR). split; [rewrite map_length; exact HL|].
      intros r Hr. apply in_map_iff in Hr. destruct Hr as (r' & <- & Hr'). rewrite map_length. auto.
    + intros i j Hi Hj. rewrite at_build by assumption. unfold at_.
      replace (@nil Z) with (map (fun x => x mod 2 ^ Z.of_nat (p_D P)) []) at 1 by reflexivity.
      rewrite (map_nth (map (fun x => x mod 2 ^ Z.of_nat (p_D P)))).
      replace 0 with (0 mod 2 ^ Z.of_nat (p_D P)) at 1 by (apply Z.mod_0_l; pose proof (pow2_pos (p_D P)); lia).
      rewrite (map_nth (fun x => x mod 2 ^ Z.of_nat (p_D P))). reflexivity.
  - rewrite (packed_length P n1 n2) by assumption. pose proof (div8 (n1 * (n2 * p_D P))). lia.
Qed.

Lemma map_id_in {A} (f : A -> A) l : (forall x, In x l -> f x = x) -> map f l = l.
Proof. intros H. rewrite <- (map_id l) at 2. apply map_ext_in, H. Qed.

Theorem pack_unpack_exact P n1 n2 C : (0 < n1)%nat -> ((n1 * n2 * p_D P) mod 8 = 0)%nat -> is_mat n1 n2 C ->
  entries (fun x => 0 <= x < 2 ^ Z.of_nat (p_D P)) C ->
  exists b, pack P C = Ok b /\ length b = (n1 * n2 * p_D P / 8)%nat /\ is_bytes b = true /\
    unpack P b n1 n2 = Ok C.
Proof.
  intros Hn H8 HM HE. destruct (pack_unpack P n1 n2 C Hn H8 HM) as (b & H1 & H2 & H3 & H4).
  exists b. repeat split; try assumption. rewrite H4. f_equal.
  apply map_id_in. intros r Hr. apply map_id_in. intros x Hx. apply Z.mod_small. apply (HE r x Hr Hx).
Qed.

Theorem unpack_pack P n1 n2 b : (0 < n1)%nat -> (p_D P * n1 * n2 = 8 * length b)%nat -> is_bytes b = true ->
  exists C, unpack P b n1 n2 = Ok C /\ is_mat n1 n2 C /\
    entries (fun x => 0 <= x < 2 ^ Z.of_nat (p_D P)) C /\ pack P C = Ok b.
Proof.
  intros Hn HL Hb. exists (unpacked P b n1 n2). split; [apply unpack_ok; lia|].
  split; [apply build_mat|]. split; [apply build_entries; intros; apply unpacked_range|].
  rewrite (pack_ok P n1 n2).
  - rewrite packed_unpacked by assumption. reflexivity.
  - apply build_mat.
  - assumption.
  - replace (n1 * (n2 * p_D P))%nat with (length b * 8)%nat by lia. apply Nat.mod_mul. lia.
Qed.

Lemma unpacked_number P b x : unpacked_at P b x = number_at (p_D P) b x.
Proof. symmetry. exact (val_rev (p_D P) (fun l => be_bit b (x * p_D P + l))). Qed.

(** * Encoding *)

(** The parameter sets have [q = 2^D] and [B < D]. *)
Definition pow2_params (P : params) : Prop :=
  p_q P = 2 ^ Z.of_nat (p_D P) /\ (p_B P < p_D P)%nat /\ (0 < p_B P)%nat.

(** The [x]-th group of [B] bits of [k]. *)
Definition group (P : params) (k : bytes) (x : nat) : Z :=
  val (p_B P) (fun l => le_bit k (x * p_B P + l)).

(** [q / 2^B]. *)
Definition step (P : params) : Z := 2 ^ Z.of_nat (p_D P - p_B P).

Lemma step_q P : pow2_params P -> p_q P = 2 ^ Z.of_nat (p_B P) * step P.
Proof.
  intros (Hq & HB & _). rewrite Hq. unfold step. rewrite <- Z.pow_add_r by lia. f_equal. lia.
Qed.

Lemma step_half P : pow2_params P -> exists h, step P = 2 * h /\ 0 < h.
Proof.
  intros (Hq & HB & _). exists (2 ^ Z.of_nat (p_D P - p_B P - 1)). split; [|apply pow2_pos].
  unfold step. rewrite <- pow2_S. do 2 f_equal. lia.
Qed.

Lemma encode_ok P k : pow2_params P -> (p_B P * p_mbar P * p_nbar P <= 8 * length k)%nat ->
  encode P k = Ok (build (p_mbar P) (p_nbar P) (fun i j => group P k (i * p_nbar P + j) * step P)).
Proof.
  intros HP H. unfold encode. apply Nat.leb_le in H. rewrite H. cbn [guard bind]. f_equal.
  apply build_ext. intros i j _ _. rewrite sum_range_sigma, (step_q P HP).
  rewrite (Z.mul_comm (2 ^ _)), Z.div_mul by (pose proof (pow2_pos (p_B P)); lia). reflexivity.
Qed.

Lemma group_range P k x : 0 <= group P k x < 2 ^ Z.of_nat (p_B P).
Proof. apply val_bound. Qed.

Lemma dc_noise P t e : pow2_params P -> 0 <= t < 2 ^ Z.of_nat (p_B P) ->
  dc P ((t * step P + e) mod p_q P) =
  (t + (2 * e + step P) / (2 * step P)) mod 2 ^ Z.of_nat (p_B P).
Proof.
  intros HP Ht. destruct (step_half P HP) as (h & Hh & Hh0). pose proof (pow2_pos (p_B P)) as HB.
  unfold dc. rewrite (step_q P HP). set (b := 2 ^ Z.of_nat (p_B P)) in *. set (u := step P) in *.
  set (x := t * u + e). pose proof (Z.div_mod x (b * u) ltac:(nia)) as Hx.
  set (y := x mod (b * u)) in *. set (c := x / (b * u)) in *.
  assert (E1 : (2 * (y * b) + b * u) / (2 * (b * u)) = (2 * y + u) / (2 * u)).
  { replace (2 * (y * b) + b * u) with ((2 * y + u) * b) by ring.
    replace (2 * (b * u)) with ((2 * u) * b) by ring.
    apply Z.div_mul_cancel_r; lia. }
  rewrite E1.
  replace (2 * y + u) with (2 * e + u + (t - c * b) * (2 * u)) by (unfold x in Hx; lia).
  rewrite Z.div_add by lia.
  replace ((2 * e + u) / (2 * u) + (t - c * b)) with (t + (2 * e + u) / (2 * u) + (- c) * b) by ring.
  apply Z_mod_plus_full.
Qed.

Lemma round_zero P e : pow2_params P ->
  (- p_q P <= e * 2 ^ (Z.of_nat (p_B P) + 1) < p_q P <-> (2 * e + step P) / (2 * step P) = 0).
Proof.
  intros HP. destruct (step_half P HP) as (h & Hh & Hh0). pose proof (pow2_pos (p_B P)) as HB.
  rewrite (step_q P HP), Z.pow_add_r, Z.pow_1_r by lia.
  set (b := 2 ^ Z.of_nat (p_B P)) in *. set (u := step P) in *.
  split; intros H.
  - apply Z.div_small. nia.
  - pose proof (Z.div_mod (2 * e + u) (2 * u) ltac:(lia)) as E.
    pose proof (Z.mod_pos_bound (2 * e + u) (2 * u) ltac:(lia)). rewrite H in E. nia.
Qed.

Lemma decode_ok P K : is_mat (p_mbar P) (p_nbar P) K -> (0 < p_mbar P)%nat ->
  decode P K = Ok (bytes_of_le_bits (p_B P * p_mbar P * p_nbar P) (fun x =>
     Z.testbit (dc P (at_ K (x / p_B P / p_nbar P) ((x / p_B P) mod p_nbar P))) (Z.of_nat (x mod p_B P)))).
Proof.
  intros HM H0. unfold decode. rewrite (ncols_mat _ _ _ HM) by assumption. cbn [bind].
  destruct HM as (-> & _). rewrite !Nat.leb_refl. reflexivity.
Qed.

(** Size of the message: all its bits are encoded. *)
Definition whole_message (P : params) (k : bytes) : Prop :=
  (p_B P * p_mbar P * p_nbar P = 8 * length k)%nat.

Lemma index_split B nbar mbar x : (0 < B)%nat -> (0 < nbar)%nat -> (x < B * mbar * nbar)%nat ->
  (x / B / nbar < mbar)%nat /\ ((x / B) mod nbar < nbar)%nat /\ (x mod B < B)%nat /\
  x = ((x / B / nbar * nbar + (x / B) mod nbar) * B + x mod B)%nat.
Proof.
  intros HB Hn Hx. split; [|split; [|split]].
  - apply Nat.div_lt_upper_bound; [lia|]. apply Nat.div_lt_upper_bound; [lia|]. nia.
  - apply Nat.mod_upper_bound. lia.
  - apply Nat.mod_upper_bound. lia.
  - pose proof (Nat.div_mod x B ltac:(lia)) as E1.
    pose proof (Nat.div_mod (x / B) nbar ltac:(lia)) as E2.
    rewrite E1 at 1. rewrite E2 at 1. ring.
Qed.

Lemma index_join B nbar i j l : (0 < B)%nat -> (0 < nbar)%nat -> (j < nbar)%nat -> (l < B)%nat ->
  (((i * nbar + j) * B + l) / B / nbar = i)%nat /\
  ((((i * nbar + j) * B + l) / B) mod nbar = j)%nat /\ (((i * nbar + j) * B + l) mod B = l)%nat.
Proof.
  intros HB Hn Hj Hl.
  assert (E : (((i * nbar + j) * B + l) / B = i * nbar + j)%nat)
    by (symmetry; apply (Nat.div_unique _ B (i * nbar + j) l); lia).
  rewrite E. split; [|split].
  - symmetry. apply (Nat.div_unique _ nbar i j); lia.
  - symmetry. apply (Nat.mod_unique _ nbar i j); lia.
  - symmetry. apply (Nat.mod_unique _ B (i * nbar + j) l); lia.
Qed.

(** Decoding gives back [k] exactly when every entry rounds to its group. *)
Lemma decode_eq_iff P k K : pow2_params P -> (0 < p_mbar P)%nat -> (0 < p_nbar P)%nat ->
  whole_message P k -> is_bytes k = true -> is_mat (p_mbar P) (p_nbar P) K ->
  (decode P K = Ok k <->
   forall i j, (i < p_mbar P)%nat -> (j < p_nbar P)%nat ->
     dc P (at_ K i j) = group P k (i * p_nbar P + j)).
Proof.
  intros HP Hm Hn HW Hk HM. pose proof HP as (_ & _ & HB). rewrite decode_ok by assumption.
  assert (HL : (8 * (p_B P * p_mbar P * p_nbar P / 8) = p_B P * p_mbar P * p_nbar P)%nat).
  { rewrite HW. rewrite (Nat.mul_comm 8 (length k)), Nat.div_mul by lia. lia. }
  split.
  - intros E i j Hi Hj. assert (E' : k = bytes_of_le_bits (p_B P * p_mbar P * p_nbar P) (fun x =>
     Z.testbit (dc P (at_ K (x / p_B P / p_nbar P) ((x / p_B P) mod p_nbar P))) (Z.of_nat (x mod p_B P)))) by congruence.
    clear E. apply (bits_eq (p_B P)); [|apply group_range|].
    + unfold dc. apply Z.mod_pos_bound, pow2_pos.
    + intros l Hl. unfold group. rewrite val_testbit by assumption. rewrite E' at 1.
      rewrite le_bit_bytes.
      * destruct (index_join (p_B P) (p_nbar P) i j l HB Hn Hj Hl) as (-> & -> & ->). reflexivity.
      * rewrite HL. assert ((i * p_nbar P + j < p_mbar P * p_nbar P)%nat) by nia. nia.
  - intros H. f_equal. apply le_bits_eq; [apply bytes_of_le_bytes|assumption| |].
    + rewrite bytes_of_le_length. unfold whole_message in HW. rewrite HW in *. lia.
    + intros x Hx. rewrite bytes_of_le_length, HL in Hx. rewrite le_bit_bytes by lia.
      destruct (index_split (p_B P) (p_nbar P) (p_mbar P) x HB Hn Hx) as (H1 & H2 & H3 & H4).
      rewrite H by assumption. unfold group. rewrite val_testbit by assumption.
      f_equal. symmetry. exact H4.
Qed.

Theorem decode_encode_iff P k E : pow2_params P -> (0 < p_mbar P)%nat -> (0 < p_nbar P)%nat ->
  whole_message P k -> is_bytes k = true -> is_mat (p_mbar P) (p_nbar P) E ->
  exists K KE, encode P k = Ok K /\ matrix_add P K E = Ok KE /\
    (decode P KE = Ok k <->
     entries (fun e => exists c, - p_q P <= (e - c * p_q P) * 2 ^ (Z.of_nat (p_B P) + 1) < p_q P) E).
Proof.
  intros HP Hm Hn HW Hk HE.
  eexists. eexists. split; [apply encode_ok; [assumption|unfold whole_message in HW; lia]|].
  split; [apply (add_ok P (p_mbar P) (p_nbar P)); [apply build_mat|assumption|assumption]|].
  rewrite decode_eq_iff by (assumption || apply build_mat).
  pose proof (pow2_pos (p_B P)) as HB.
  assert (Hentry : forall i j, (i < p_mbar P)%nat -> (j < p_nbar P)%nat ->
    let t := group P k (i * p_nbar P + j) in
    (dc P ((t * step P + at_ E i j) mod p_q P) = t <->
     exists c, - p_q P <= (at_ E i j - c * p_q P) * 2 ^ (Z.of_nat (p_B P) + 1) < p_q P)).
  { intros i j Hi Hj t. pose proof (group_range P k (i * p_nbar P + j)) as Ht. fold t in Ht.
    rewrite dc_noise by assumption. set (e := at_ E i j).
    destruct (step_half P HP) as (h & Hh & Hh0).
    split.
    - intros Ed. pose proof (Z.div_mod (t + (2 * e + step P) / (2 * step P)) (2 ^ Z.of_nat (p_B P)) ltac:(lia)) as D.
      rewrite Ed in D. set (c := (t + (2 * e + step P) / (2 * step P)) / 2 ^ Z.of_nat (p_B P)) in *.
      exists c. apply (round_zero P _ HP). rewrite (step_q P HP).
      replace (2 * (e - c * (2 ^ Z.of_nat (p_B P) * step P)) + step P)
        with (2 * e + step P + (- c * 2 ^ Z.of_nat (p_B P)) * (2 * step P)) by ring.
      rewrite Z.div_add by lia. lia.
    - intros (c & Hc). apply (round_zero P _ HP) in Hc. rewrite (step_q P HP) in Hc.
      replace (2 * (e - c * (2 ^ Z.of_nat (p_B P) * step P)) + step P)
        with (2 * e + step P + (- c * 2 ^ Z.of_nat (p_B P)) * (2 * step P)) in Hc by ring.
      rewrite Z.div_add in Hc by lia.
      replace (t + (2 * e + step P) / (2 * step P)) with (t + c * 2 ^ Z.of_nat (p_B P)) by lia.
      rewrite Z_mod_plus_full. apply Z.mod_small. exact Ht. }
  split.
  - intros H. rewrite (mat_build _ _ _ HE). apply build_entries. intros i j Hi Hj.
    apply Hentry; [assumption|assumption|]. specialize (H i j Hi Hj).
    rewrite at_build in H by assumption. rewrite at_build in H by assumption. exact H.
  - intros H i j Hi Hj. rewrite at_build by assumption. rewrite at_build by assumption.
    apply Hentry; [assumption|assumption|]. exact (at_entries _ _ _ _ HE H i j Hi Hj).
Qed.

Theorem decode_encode P k E : pow2_params P -> (0 < p_mbar P)%nat -> (0 < p_nbar P)%nat ->
  whole_message P k -> is_bytes k = true -> is_mat (p_mbar P) (p_nbar P) E ->
  entries (fun e => - p_q P <= e * 2 ^ (Z.of_nat (p_B P) + 1) < p_q P) E ->
  exists K KE, encode P k = Ok K /\ matrix_add P K E = Ok KE /\ decode P KE = Ok k.
Proof.
  intros HP Hm Hn HW Hk HE H.
  destruct (decode_encode_iff P k E HP Hm Hn HW Hk HE) as (K & KE & H1 & H2 & H3).
  exists K, KE. repeat split; try assumption. apply H3. intros r x Hr Hx. exists 0.
  rewrite Z.mul_0_l, Z.sub_0_r. apply (H r x Hr Hx).
Qed.

(** * Sampling *)

Lemma fold_add_sigma : forall (l : list Z) a, fold_left Z.add l a = a + sigma (length l) (fun i => nth i l 0).
Proof.
  induction l as [|x l IH]; intros a; [simpl; lia|].
  simpl fold_left. rewrite IH. simpl length. rewrite sigma_shift. simpl nth. lia.
Qed.

Lemma T_chi_length P : length (T_chi P) = length (p_chi P).
Proof. unfold T_chi, cdf_zero_centred_symmetric. rewrite map_length, seq_length. reflexivity. Qed.

Lemma nth_T_chi P z : (z < length (p_chi P))%nat -> nth z (T_chi P) 0 = weight_upto (p_chi P) z - 1.
Proof.
  intros Hz. unfold T_chi, cdf_zero_centred_symmetric, weight_upto.
  erewrite nth_indep by (rewrite map_length, seq_length; exact Hz).
  rewrite (map_nth (fun z => nth 0 (p_chi P) 0 / 2 - 1 + fold_left Z.add (slice 1 (z + 1) (p_chi P)) 0) _ 0%nat).
  rewrite seq_nth by assumption. simpl Nat.add at 1. rewrite fold_add_sigma.
  assert (E : sigma (length (slice 1 (z + 1) (p_chi P))) (fun i => nth i (slice 1 (z + 1) (p_chi P)) 0)
              = sigma z (fun i => nth (S i) (p_chi P) 0)).
  { unfold slice. replace (z + 1 - 1)%nat with z by lia.
    rewrite firstn_length_le by (rewrite skipn_length; lia).
    apply sigma_ext. intros k Hk. destruct (p_chi P) as [|c l]; [simpl in Hz; lia|]. simpl skipn.
    simpl in Hz. clear - Hk Hz. revert z k Hk Hz. induction l as [|a l IH]; intros z k Hk Hz.
    - simpl in Hz. lia.
    - destruct z as [|z]; [lia|]. destruct k as [|k]; [reflexivity|]. simpl. apply (IH z); simpl in *; lia. }
  rewrite E. lia.
Qed.

Lemma fold_count (p : nat -> bool) : forall l a,
  fold_left (fun e z => if p z then e + 1 else e) l a = a + Z.of_nat (length (filter p l)).
Proof.
  induction l as [|z l IH]; intros a; [simpl; lia|]. simpl. destruct (p z); rewrite IH; simpl length; lia.
Qed.

Lemma filter_ext_in' {A} (p p' : A -> bool) l : (forall x, In x l -> p x = p' x) -> filter p l = filter p' l.
Proof.
  induction l as [|x l IH]; intros H; [reflexivity|]. simpl.
  rewrite H by (left; reflexivity). rewrite IH by (intros; apply H; right; assumption). reflexivity.
Qed.

Lemma sample_noise P r : sample P r = noise_of (p_chi P) r.
Proof.
  unfold sample, noise_of. rewrite fold_count, Z.add_0_l, Z.shiftr_div_pow2 by lia.
  change (2 ^ 1) with 2. rewrite T_chi_length.
  assert (E : filter (fun z => r / 2 >? nth z (T_chi P) 0) (seq 0 (length (p_chi P) - 1)) =
              filter (fun m => weight_upto (p_chi P) m <=? r / 2) (seq 0 (length (p_chi P) - 1))).
  { apply filter_ext_in'. intros z Hz. apply in_seq in Hz. rewrite nth_T_chi by lia.
    destruct (Z.gtb_spec (r / 2) (weight_upto (p_chi P) z - 1)); destruct (Z.leb_spec (weight_upto (p_chi P) z) (r / 2)); (reflexivity || lia). }
  rewrite E. rewrite Zmod_odd. destruct (Z.odd r).
  - change ((-1) ^ 1) with (-1). lia.
  - change ((-1) ^ 0) with 1. lia.
Qed.

Lemma filter_length_le {A} (p : A -> bool) l : (length (filter p l) <= length l)%nat.
Proof. induction l as [|x l IH]; [simpl; lia|]. simpl. destruct (p x); simpl; lia. Qed.

Lemma noise_bound chi r : - Z.of_nat (length chi - 1) <= noise_of chi r <= Z.of_nat (length chi - 1).
Proof.
  unfold noise_of. pose proof (filter_length_le (fun m => weight_upto chi m <=? r / 2) (seq 0 (length chi - 1))) as H.
  rewrite seq_length in H. destruct (Z.odd r); lia.
Qed.

Lemma weight_mono chi a b : (forall x, In x chi -> 0 <= x) -> (a <= b)%nat ->
  weight_upto chi a <= weight_upto chi b.
Proof.
  intros H Hab. unfold weight_upto. induction Hab as [|b Hab IH]; [lia|]. simpl sigma.
  assert (0 <= nth (S b) chi 0); [|lia].
  destruct (Nat.lt_ge_cases (S b) (length chi)) as [Hl|Hl].
  - apply H, nth_In, Hl.
  - rewrite nth_overflow by lia. lia.
Qed.

(** Counting a downward-closed predicate. *)
Lemma filter_initial (p : nat -> bool) : forall n, (forall a b, (a <= b)%nat -> p b = true -> p a = true) ->
  exists m, length (filter p (seq 0 n)) = m /\ (m <= n)%nat /\
    (forall i, (i < m)%nat -> p i = true) /\ ((m < n)%nat -> p m = false).
Proof.
  induction n as [|n IH]; intros H.
  - exists O. repeat split; intros; lia.
  - destruct (IH H) as (m & Hm & Hle & H1 & H2). rewrite seq_S, filter_app, app_length, Hm. simpl.
    destruct (p n) eqn:E.
    + exists (S n). assert (m = n). { destruct (Nat.eq_dec m n) as [|Hne]; [assumption|].
        rewrite (H m n) in H2 by (assumption || lia). specialize (H2 ltac:(lia)). discriminate. }
      subst m. simpl. repeat split; [lia|lia| |lia]. intros i Hi. apply (H i n); [lia|assumption].
    + exists m. simpl. repeat split; [lia|lia|assumption|]. intros Hlt.
      destruct (Nat.eq_dec m n) as [->|Hne]; [assumption|apply H2; lia].
Qed.

(** [noise_of] draws from the distribution, for every 15-bit [r / 2] the table covers. *)
Lemma noise_drawn chi r : (0 < length chi)%nat -> (forall x, In x chi -> 0 <= x) ->
  r / 2 < weight_upto chi (length chi - 1) -> drawn chi r (noise_of chi r).
Proof.
  intros HL HP Hr. unfold noise_of.
  destruct (filter_initial (fun m => weight_upto chi m <=? r / 2) (length chi - 1)) as (m & Hm & Hle & H1 & H2).
  { intros a b Hab Hb. apply Z.leb_le in Hb. apply Z.leb_le. pose proof (weight_mono chi a b HP Hab). lia. }
  rewrite Hm. exists m. split; [lia|]. split; [reflexivity|]. split.
  - destruct m as [|m]; [left; reflexivity|right]. specialize (H1 m ltac:(lia)). apply Z.leb_le in H1.
    replace (S m - 1)%nat with m by lia. exact H1.
  - destruct (Nat.eq_dec m (length chi - 1)) as [E|Hne].
    + rewrite E. exact Hr.
    + specialize (H2 ltac:(lia)). apply Z.leb_gt in H2. exact H2.
Qed.

Lemma drawn_unique chi r e e' : (forall x, In x chi -> 0 <= x) -> drawn chi r e -> drawn chi r e' -> e = e'.
Proof.
  intros HP (m & Hm & He & H1 & H2) (m' & Hm' & He' & H1' & H2').
  assert (m = m'); [|subst; reflexivity].
  destruct (Nat.lt_trichotomy m m') as [Hlt|[E|Hlt]]; [|exact E|].
  - destruct H1' as [->|H1']; [lia|]. pose proof (weight_mono chi m (m' - 1) HP ltac:(lia)). lia.
  - destruct H1 as [->|H1]; [lia|]. pose proof (weight_mono chi m' (m - 1) HP ltac:(lia)). lia.
Qed.

Theorem sample_iff P r e : (0 < length (p_chi P))%nat -> (forall x, In x (p_chi P) -> 0 <= x) ->
  r / 2 < weight_upto (p_chi P) (length (p_chi P) - 1) ->
  (sample P r = e <-> drawn (p_chi P) r e).
Proof.
  intros HL HP Hr. rewrite sample_noise. pose proof (noise_drawn (p_chi P) r HL HP Hr) as Hd. split.
  - intros <-. exact Hd.
  - intros H. exact (drawn_unique _ _ _ _ HP Hd H).
Qed.
