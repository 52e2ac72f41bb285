(** Agreement and implicit rejection of the FrodoKEM model. *)

From Coq Require Import Arith ZArith List Bool Lia.
From Verif Require Import Prelude PreludeFacts FrodoModel FrodoSpec FrodoProofs FrodoKem.
Import ListNotations.
Open Scope Z_scope.

(** * The secret matrix as 16-bit integers *)

Lemma intle_all_ok : forall l, (forall x, In x l -> -32768 <= x <= 32767) ->
  exists Sb, intle_all l = Ok Sb /\ length Sb = (2 * length l)%nat /\ is_bytes Sb = true /\
    forall i, (i < length l)%nat -> read_intle16 Sb i = nth i l 0.
Proof.
  induction l as [|x l IH]; intros H.
  - exists []. repeat split. intros i Hi. simpl in Hi. lia.
  - destruct IH as (Sb & H1 & H2 & H3 & H4). { intros y Hy. apply H. right. exact Hy. }
    assert (Hx : -32768 <= x <= 32767) by (apply H; left; reflexivity).
    pose proof (Z.mod_pos_bound x 256 ltac:(lia)). pose proof (Z.mod_pos_bound (x / 256) 256 ltac:(lia)).
    exists ([x mod 256; (x / 256) mod 256] ++ Sb). split.
    { simpl intle_all. unfold intle16.
      replace ((-32768 <=? x) && (x <=? 32767)) with true by (symmetry; apply andb_true_iff; lia).
      cbn [guard bind]. rewrite H1. reflexivity. }
    split; [simpl; lia|]. split.
    { rewrite is_bytes_app, H3, andb_true_r. unfold is_bytes, is_byte. cbn [forallb]. lia. }
    intros [|i] Hi.
    + unfold read_intle16, le16. cbn [app nth Nat.mul Nat.add].
      pose proof (Z.div_mod x 256 ltac:(lia)). pose proof (Z.div_mod (x / 256) 256 ltac:(lia)).
      assert (x / 256 / 256 = 0 \/ x / 256 / 256 = -1) by lia.
      destruct (Z.ltb_spec (x mod 256 + 256 * ((x / 256) mod 256)) 32768); lia.
    + simpl in Hi. cbn [nth]. rewrite <- (H4 i) by lia. unfold read_intle16, le16.
      replace (2 * S i)%nat with (S (S (2 * i))) by lia.
      replace (S (S (2 * i)) + 1)%nat with (S (S (2 * i + 1))) by lia. reflexivity.
Qed.

Lemma nth_concat n1 n2 M i j : is_mat n1 n2 M -> (i < n1)%nat -> (j < n2)%nat ->
  nth (i * n2 + j) (concat M) 0 = at_ M i j.
Proof.
  intros (HL & HR) Hi Hj. rewrite <- (map_id M) at 1. rewrite <- flat_map_concat_map.
  rewrite (nth_flat_map (fun x => x) n2 0 []) by (assumption || lia). reflexivity.
Qed.

Lemma concat_length_mat n1 n2 M : is_mat n1 n2 M -> length (concat M) = (n1 * n2)%nat.
Proof.
  intros (HL & HR). rewrite <- (map_id M). rewrite <- flat_map_concat_map.
  rewrite (flat_map_length_const (fun x => x) n2) by assumption. rewrite HL. reflexivity.
Qed.

Section Top.

Variable L : flib.
Variable P : params.
Variable aes : bool.
Hypothesis HL : good_lib L.
Hypothesis HG : good P.

Local Notation sh := (shake L P).
Local Notation n := (p_n P).
Local Notation D := (p_D P).
Local Notation q := (p_q P).

Definition k_rb (seedSE : bytes) := sh (95 :: seedSE) (2 * n * 8 * 2).
Definition k_St (seedSE : bytes) : matrix := drawn_mat P (k_rb seedSE) 0 8 n.
Definition k_E (seedSE : bytes) : matrix := drawn_mat P (k_rb seedSE) (n * 8) n 8.
Definition k_B (seedSE seedA : bytes) : matrix :=
  Madd P n 8 (Mmul P n n 8 (gen L P aes seedA) (Mtr 8 n (k_St seedSE))) (k_E seedSE).

Lemma drawn_range rb a n1 n2 x : In x (concat (drawn_mat P rb a n1 n2)) -> -32768 <= x <= 32767.
Proof.
  intros Hx. apply in_concat in Hx. destruct Hx as (r & Hr & Hx).
  refine (build_entries n1 n2 _ (fun x => -32768 <= x <= 32767) _ r x Hr Hx).
  intros i j _ _. pose proof (noise_bound (p_chi P) (word16 rb (a + (i * n2 + j)))). pose proof (g_chi P HG). lia.
Qed.

Theorem keygen_ok s seedSE z : length s = p_s P -> length seedSE = p_seedSE P -> length z = p_z P ->
  let seedA := sh z (p_seedA P) in
  let b := packed P (k_B seedSE seedA) in
  exists Sb,
    kem_keygen L P aes (s ++ seedSE ++ z) =
      Ok (seedA ++ b, s ++ seedA ++ b ++ Sb ++ sh (seedA ++ b) (p_pkh P)) /\
    length Sb = (2 * (8 * n))%nat /\ is_bytes Sb = true /\
    d_S P Sb = Mtr 8 n (k_St seedSE).
Proof.
  intros Hs Hse Hz seedA b. pose proof (g_n P HG) as Hn.
  destruct (intle_all_ok (concat (k_St seedSE))) as (Sb & H1 & H2 & H3 & H4).
  { intros x Hx. exact (drawn_range _ _ _ _ x Hx). }
  rewrite (concat_length_mat 8 n) in H2, H4 by apply build_mat.
  exists Sb.
  assert (Hb : length b = (D * n)%nat) by (apply pack_n8; [exact HG|apply build_mat]).
  split; [|split; [lia|split; [assumption|]]].
  - unfold kem_keygen. rewrite (g_nbar P HG).
    assert (E1 : slice 0 (p_s P) (s ++ seedSE ++ z) = s) by (apply slice_first; assumption).
    assert (E2 : slice (p_s P) (p_s P + p_seedSE P) (s ++ seedSE ++ z) = seedSE) by (apply slice_mid; assumption).
    assert (E3 : slice (p_s P + p_seedSE P) (p_s P + p_seedSE P + p_z P) (s ++ seedSE ++ z) = z).
    { rewrite app_assoc. apply slice_last; [rewrite app_length; lia|assumption]. }
    rewrite E1, E2, E3. fold seedA. fold (k_rb seedSE).
    rewrite (sample_matrix_ok P _ _ 0 (n * 8) 8 n) by lia. cbn [bind].
    fold (k_St seedSE).
    rewrite (transpose_ok 8 n) by (apply build_mat || lia). cbn [bind]. fold (Mtr 8 n (k_St seedSE)).
    rewrite (sample_matrix_ok P _ _ (n * 8) (2 * n * 8) n 8) by lia. cbn [bind]. fold (k_E seedSE).
    rewrite (mul_ok P n n 8) by (apply build_mat || apply gen_mat || lia). cbn [bind].
    rewrite (add_ok P n 8) by (apply build_mat || lia). cbn [bind].
    fold (Mmul P n n 8 (gen L P aes seedA) (Mtr 8 n (k_St seedSE))).
    fold (Madd P n 8 (Mmul P n n 8 (gen L P aes seedA) (Mtr 8 n (k_St seedSE))) (k_E seedSE)).
    fold (k_B seedSE seedA).
    destruct (pack_n8 P HG (k_B seedSE seedA) ltac:(apply build_mat)) as (HP1 & _).
    rewrite HP1. cbn [bind]. fold b.
    assert (LA : length seedA = p_seedA P) by (apply sh_length; exact HL).
    replace (Z.of_nat (length (seedA ++ b)) =? p_pk P) with true.
    2:{ symmetry. apply Z.eqb_eq. rewrite (g_pk P HG), app_length. lia. }
    cbn [guard bind]. rewrite H1. cbn [bind].
    replace (Z.of_nat (length (s ++ seedA ++ b ++ Sb ++ sh (seedA ++ b) (p_pkh P))) =? p_sk P) with true.
    2:{ symmetry. apply Z.eqb_eq. rewrite (g_sk P HG), !app_length, (sh_length L P HL). lia. }
    reflexivity.
  - unfold d_S, Mtr. apply build_ext. intros i j Hi Hj. rewrite at_build by assumption.
    rewrite H4 by nia. apply (nth_concat 8 n); [apply build_mat|assumption|assumption].
Qed.

(** * Decryption of an honest ciphertext *)

Lemma double_sum (X Y Z : nat -> nat -> Z) i j :
  sigma n (fun k => X i k * sigma n (fun m => Y k m * Z m j)) =
  sigma n (fun k => sigma n (fun m => X i m * Y m k) * Z k j).
Proof.
  transitivity (sigma n (fun k => sigma n (fun m => X i k * Y k m * Z m j))).
  - apply sigma_ext. intros k _. rewrite <- sigma_scale_l. apply sigma_ext. intros; ring.
  - rewrite sigma_swap. apply sigma_ext. intros k _. rewrite <- sigma_scale_r. reflexivity.
Qed.

Lemma unpacked_packed_small n1 n2 M : is_mat n1 n2 M -> ((n1 * (n2 * D)) mod 8 = 0)%nat ->
  (forall i j, (i < n1)%nat -> (j < n2)%nat -> 0 <= at_ M i j < 2 ^ Z.of_nat D) ->
  unpacked P (packed P M) n1 n2 = M.
Proof.
  intros HM H8 HR. rewrite unpacked_packed by assumption. symmetry. apply (mat_ext n1 n2); [assumption|apply build_mat|].
  intros i j Hi Hj. rewrite at_build by assumption. symmetry. apply Z.mod_small. auto.
Qed.

Lemma combine_mod m X X' Z Z' Y t : X mod m = X' mod m -> Z mod m = Z' mod m ->
  (((X mod m + Y) mod m + t) - Z) mod m = (X' + Y + t - Z') mod m.
Proof.
  intros HX HZ. rewrite HX. rewrite Zminus_mod, HZ, <- Zminus_mod.
  rewrite <- (Zminus_mod_idemp_l (_ + t)), Zplus_mod_idemp_l, Zminus_mod_idemp_l.
  rewrite <- Z.add_assoc, <- Z.add_sub_assoc, Zplus_mod_idemp_l. f_equal. ring.
Qed.

(** The noise at entry [i, j]. *)
Definition noise (seedSE rb : bytes) (i j : nat) : Z :=
  sigma n (fun k => at_ (drawn_mat P rb 0 8 n) i k * at_ (k_E seedSE) k j)
  + at_ (drawn_mat P rb (2 * 8 * n) 8 8) i j
  - sigma n (fun k => at_ (drawn_mat P rb (8 * n) 8 n) i k * at_ (k_St seedSE) j k).

Lemma mod8_n8 : ((n * (8 * D)) mod 8 = 0)%nat.
Proof. replace (n * (8 * D))%nat with (n * D * 8)%nat by ring. apply Nat.mod_mul. lia. Qed.
Lemma mod8_8n : ((8 * (n * D)) mod 8 = 0)%nat.
Proof. replace (8 * (n * D))%nat with (n * D * 8)%nat by ring. apply Nat.mod_mul. lia. Qed.
Lemma mod8_88 : ((8 * (8 * D)) mod 8 = 0)%nat.
Proof. replace (8 * (8 * D))%nat with (8 * D * 8)%nat by ring. apply Nat.mod_mul. lia. Qed.

Lemma at_Madd a b X Y i j : (i < a)%nat -> (j < b)%nat -> at_ (Madd P a b X Y) i j = (at_ X i j + at_ Y i j) mod q.
Proof. intros. apply at_build; assumption. Qed.
Lemma at_Mmul a b c X Y i j : (i < a)%nat -> (j < c)%nat ->
  at_ (Mmul P a b c X Y) i j = sigma b (fun k => at_ X i k * at_ Y k j) mod q.
Proof. intros. unfold Mmul. apply at_build; assumption. Qed.

Lemma honest_M seedSE seedA Sb pkh mu salt i j :
  d_S P Sb = Mtr 8 n (k_St seedSE) -> (i < 8)%nat -> (j < 8)%nat ->
  let b := packed P (k_B seedSE seedA) in
  at_ (d_M P Sb (packed P (e_Bp L P aes seedA pkh mu salt)) (packed P (e_C L P b pkh mu salt))) i j =
  (group P mu (i * 8 + j) * step P + noise seedSE (e_rb L P pkh mu salt) i j) mod q.
Proof.
  intros HS Hi Hj b. unfold d_M. rewrite HS.
  rewrite (unpacked_packed_small 8 8) by (first [apply build_mat | apply mod8_88 | intros; apply Madd_range; assumption]).
  rewrite (unpacked_packed_small 8 n) by (first [apply build_mat | apply mod8_8n | intros; apply Madd_range; assumption]).
  unfold Msub. rewrite at_build by assumption. rewrite at_Mmul by assumption.
  unfold e_C. rewrite at_Madd by assumption. rewrite at_Madd by assumption. rewrite at_Mmul by assumption.
  unfold b. rewrite (unpacked_packed_small n 8) by (first [apply build_mat | apply mod8_n8 | intros; apply Madd_range; assumption]).
  set (rb := e_rb L P pkh mu salt). set (Sp := drawn_mat P rb 0 8 n).
  set (Ep := drawn_mat P rb (8 * n) 8 n). set (A := gen L P aes seedA).
  set (t := at_ (Menc P mu) i j).
  assert (Ht : t = group P mu (i * 8 + j) * step P) by (apply at_build; assumption).
  rewrite <- Ht. clear Ht.
  rewrite Zminus_mod_idemp_r, Zminus_mod_idemp_l.
  set (T := fun k j => at_ (k_St seedSE) j k).
  (* first product *)
  assert (E1 : sigma n (fun k => at_ Sp i k * at_ (k_B seedSE seedA) k j) mod q =
               (sigma n (fun k => at_ Sp i k * sigma n (fun m => at_ A k m * T m j))
                + sigma n (fun k => at_ Sp i k * at_ (k_E seedSE) k j)) mod q).
  { rewrite <- sigma_add. apply sigma_mod. intros k Hk. unfold k_B.
    rewrite at_Madd by assumption. rewrite at_Mmul by assumption.
    rewrite Zmult_mod_idemp_r. rewrite <- Z.mul_add_distr_l.
    rewrite Zmult_mod, Zplus_mod_idemp_l, <- Zmult_mod. f_equal. f_equal. f_equal.
    apply sigma_ext. intros m Hm. f_equal. unfold Mtr. rewrite at_build by assumption. reflexivity. }
  assert (E2 : sigma n (fun k => at_ (e_Bp L P aes seedA pkh mu salt) i k * at_ (Mtr 8 n (k_St seedSE)) k j) mod q =
               (sigma n (fun k => sigma n (fun m => at_ Sp i m * at_ A m k) * T k j)
                + sigma n (fun k => at_ Ep i k * T k j)) mod q).
  { rewrite <- sigma_add. apply sigma_mod. intros k Hk. unfold e_Bp. fold rb. fold Sp. fold Ep. fold A.
    rewrite at_Madd by assumption. rewrite at_Mmul by assumption.
    rewrite Zmult_mod_idemp_l. rewrite <- Z.mul_add_distr_r.
    unfold Mtr at 1. rewrite at_build by assumption. fold (T k j).
    rewrite Zmult_mod, Zplus_mod_idemp_l, <- Zmult_mod. reflexivity. }
  rewrite (combine_mod q _ _ _ _ _ _ E1 E2).
  rewrite (double_sum (fun i k => at_ Sp i k) (fun k m => at_ A k m) T i j).
  f_equal. unfold noise. fold Sp. fold Ep. unfold T.
  set (E2x := at_ (drawn_mat P rb (2 * 8 * n) 8 8) i j). lia.
Qed.

Lemma honest_mu seedSE seedA Sb pkh mu salt :
  d_S P Sb = Mtr 8 n (k_St seedSE) -> length mu = p_mu P -> is_bytes mu = true ->
  (forall i j, (i < 8)%nat -> (j < 8)%nat ->
     - q <= noise seedSE (e_rb L P pkh mu salt) i j * 2 ^ (Z.of_nat (p_B P) + 1) < q) ->
  let b := packed P (k_B seedSE seedA) in
  d_mu P Sb (packed P (e_Bp L P aes seedA pkh mu salt)) (packed P (e_C L P b pkh mu salt)) = mu.
Proof.
  intros HS Hmu Bmu HN b. unfold d_mu.
  set (M := d_M P Sb _ _).
  assert (HM : is_mat 8 8 M) by apply build_mat.
  assert (HD : decode P M = Ok mu).
  { apply decode_eq_iff.
    - apply (g_pow P HG).
    - rewrite (g_mbar P HG). lia.
    - rewrite (g_nbar P HG). lia.
    - unfold whole_message. rewrite (g_mbar P HG), (g_nbar P HG), Hmu, (g_mu P HG). lia.
    - assumption.
    - rewrite (g_mbar P HG), (g_nbar P HG). exact HM.
    - rewrite (g_mbar P HG), (g_nbar P HG). intros i j Hi Hj. unfold M, b.
      rewrite (honest_M seedSE) by assumption.
      rewrite dc_noise; [|apply (g_pow P HG)|apply group_range].
      replace ((2 * noise seedSE (e_rb L P pkh mu salt) i j + step P) / (2 * step P)) with 0.
      + rewrite Z.add_0_r. apply Z.mod_small, group_range.
      + symmetry. apply (round_zero P _ (g_pow P HG)). apply HN; assumption. }
  rewrite (decode_8 P HG M HM) in HD. congruence.
Qed.

End Top.
