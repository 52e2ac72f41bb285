(** Key generation, encapsulation and decapsulation of the FrodoKEM model. *)

From Coq Require Import Arith ZArith List Bool Lia.
From Verif Require Import Prelude PreludeFacts FrodoModel FrodoSpec FrodoProofs.
Import ListNotations.
Open Scope Z_scope.

(** * Slices *)

Lemma slice_mid {A} (a x b : list A) i k : length a = i -> length x = k ->
  slice i (i + k) (a ++ x ++ b) = x.
Proof.
  intros <- <-. unfold slice. rewrite skipn_app, skipn_all, Nat.sub_diag. simpl.
  replace (length a + length x - length a)%nat with (length x) by lia.
  rewrite firstn_app, firstn_all, Nat.sub_diag. simpl. apply app_nil_r.
Qed.

Lemma slice_first {A} (x b : list A) k : length x = k -> slice 0 k (x ++ b) = x.
Proof. intros H. exact (slice_mid [] x b 0 k eq_refl H). Qed.

Lemma slice_last {A} (a x : list A) i k : length a = i -> length x = k -> slice i (i + k) (a ++ x) = x.
Proof. intros Ha Hx. rewrite <- (app_nil_r x) at 1. apply slice_mid; assumption. Qed.

Lemma nth_slice {A} (d : A) a b l x : (a + x < b)%nat -> nth x (slice a b l) d = nth (a + x) l d.
Proof.
  intros H. unfold slice.
  assert (E : forall n (m : list A) y, (y < n)%nat -> nth y (firstn n m) d = nth y m d).
  { induction n; intros m y Hy; [lia|]. destruct m; destruct y; try reflexivity. simpl. apply IHn. lia. }
  rewrite E by lia.
  assert (E' : forall n (m : list A) y, nth y (skipn n m) d = nth (n + y) m d).
  { induction n; intros m y; [reflexivity|]. destruct m; simpl; [destruct y; reflexivity|apply IHn]. }
  apply E'.
Qed.

Lemma slice_length {A} a b (l : list A) : (a <= b)%nat -> (b <= length l)%nat -> length (slice a b l) = (b - a)%nat.
Proof. intros H1 H2. unfold slice. rewrite firstn_length, skipn_length. lia. Qed.

Lemma is_bytes_app a b : is_bytes (a ++ b) = is_bytes a && is_bytes b.
Proof. apply forallb_app. Qed.

Lemma is_bytes_slice a b l : is_bytes l = true -> is_bytes (slice a b l) = true.
Proof.
  intros H. unfold is_bytes in *. rewrite forallb_forall in *. intros x Hx. apply H.
  unfold slice in Hx.
  assert (Hf : forall n (m : bytes), In x (firstn n m) -> In x m).
  { intros n m Hin. rewrite <- (firstn_skipn n m). apply in_or_app. left. exact Hin. }
  assert (Hs : forall n (m : bytes), In x (skipn n m) -> In x m).
  { intros n m Hin. rewrite <- (firstn_skipn n m). apply in_or_app. right. exact Hin. }
  apply (Hs a), (Hf (b - a)%nat), Hx.
Qed.

(** * Named results of the matrix operations *)

Definition Mmul (P : params) a b c (X Y : matrix) : matrix :=
  build a c (fun i j => sigma b (fun k => at_ X i k * at_ Y k j) mod p_q P).
Definition Madd (P : params) a b (X Y : matrix) : matrix :=
  build a b (fun i j => (at_ X i j + at_ Y i j) mod p_q P).
Definition Msub (P : params) a b (X Y : matrix) : matrix :=
  build a b (fun i j => (at_ X i j - at_ Y i j) mod p_q P).
Definition Mtr a b (X : matrix) : matrix := build b a (fun i j => at_ X j i).
Definition Menc (P : params) (k : bytes) : matrix :=
  build 8 8 (fun i j => group P k (i * 8 + j) * step P).
Definition Mdec (P : params) (K : matrix) : bytes :=
  bytes_of_le_bits (p_B P * 8 * 8) (fun x =>
     Z.testbit (dc P (at_ K (x / p_B P / 8) ((x / p_B P) mod 8))) (Z.of_nat (x mod p_B P))).

(** What holds of the three parameter sets. *)
Record good (P : params) : Prop := mk_good {
  g_pow : pow2_params P;
  g_nbar : p_nbar P = 8%nat;
  g_mbar : p_mbar P = 8%nat;
  g_n : (0 < p_n P)%nat;
  g_mu : p_mu P = (8 * p_B P)%nat;
  g_k : p_k P = p_s P;
  g_pk : p_pk P = Z.of_nat (p_seedA P + p_D P * p_n P);
  g_ct : p_ct P = Z.of_nat (p_D P * p_n P + p_D P * 8 + p_salt P);
  g_sk : p_sk P = Z.of_nat (p_s P + (p_seedA P + p_D P * p_n P) + 2 * (8 * p_n P) + p_pkh P);
  g_chi : Z.of_nat (length (p_chi P)) < 32768 }.

Lemma params_good v : good (params_of v).
Proof.
  destruct v; (split; [split; [reflexivity|simpl; lia]|reflexivity|reflexivity|simpl; lia|reflexivity
    |reflexivity|simpl p_pk; simpl p_seedA; simpl p_D; simpl p_n; lia
    |simpl p_ct; simpl p_salt; simpl p_D; simpl p_n; lia
    |simpl p_sk; simpl p_s; simpl p_seedA; simpl p_D; simpl p_n; simpl p_pkh; lia|simpl; lia]).
Qed.

Section Kem.

Variable L : flib.
Variable P : params.
Variable aes : bool.
Hypothesis HL : good_lib L.
Hypothesis HG : good P.

Local Notation sh := (shake L P).
Local Notation n := (p_n P).
Local Notation D := (p_D P).

Lemma sh_length m k : length (sh m k) = k.
Proof. unfold shake. destruct HL as (H1 & H2 & _). destruct (p_shake256 P); [apply H2|apply H1]. Qed.

Lemma sh_bytes m k : is_bytes (sh m k) = true.
Proof. unfold shake. destruct HL as (H1 & H2 & _). destruct (p_shake256 P); [apply H2|apply H1]. Qed.

Lemma q_pos : 0 < p_q P.
Proof. destruct (g_pow P HG) as (-> & _). apply pow2_pos. Qed.

(** A matrix drawn from the words of [rb], starting with word [a]. *)
Definition drawn_mat (rb : bytes) (a n1 n2 : nat) : matrix :=
  build n1 n2 (fun i j => noise_of (p_chi P) (word16 rb (a + (i * n2 + j)))).

Lemma sample_matrix_ok rb cnt a b n1 n2 : (b = a + n1 * n2)%nat -> (b <= cnt)%nat ->
  sample_matrix P (slice a b (words rb cnt)) n1 n2 = Ok (drawn_mat rb a n1 n2).
Proof.
  intros -> Hb. unfold sample_matrix.
  assert (HW : length (words rb cnt) = cnt) by (unfold words; rewrite map_length, seq_length; reflexivity).
  rewrite slice_length by lia. replace (n1 * n2 <=? a + n1 * n2 - a)%nat with true by (symmetry; apply Nat.leb_le; lia).
  cbn [guard bind]. f_equal. apply build_ext. intros i j Hi Hj. rewrite sample_noise. f_equal.
  assert ((i * n2 + j < n1 * n2)%nat) by nia.
  rewrite nth_slice by lia. unfold words.
  erewrite nth_indep by (rewrite map_length, seq_length; lia).
  rewrite (map_nth (le16 rb) _ 0%nat). rewrite seq_nth by lia. reflexivity.
Qed.

Lemma gen_mat seedA : is_mat n n (gen L P aes seedA).
Proof. unfold gen. destruct aes; apply build_mat. Qed.

Lemma gen_range seedA i j : (i < n)%nat -> (j < n)%nat -> 0 <= at_ (gen L P aes seedA) i j < p_q P.
Proof.
  intros Hi Hj. pose proof q_pos. unfold gen. destruct aes; unfold genAES128, genSHAKE128;
    rewrite at_build by assumption; apply Z.mod_pos_bound; assumption.
Qed.

(** The encryption both sides compute. *)
Definition e_sk (pkh mu salt : bytes) := sh (pkh ++ mu ++ salt) (p_seedSE P + p_k P).
Definition e_rb (pkh mu salt : bytes) :=
  sh (150 :: slice 0 (p_seedSE P) (e_sk pkh mu salt)) ((2 * 8 * n + 8 * 8) * 2).
Definition e_k (pkh mu salt : bytes) := slice (p_seedSE P) (p_seedSE P + p_k P) (e_sk pkh mu salt).
Definition e_Bp (seedA pkh mu salt : bytes) : matrix :=
  Madd P 8 n (Mmul P 8 n n (drawn_mat (e_rb pkh mu salt) 0 8 n) (gen L P aes seedA))
    (drawn_mat (e_rb pkh mu salt) (8 * n) 8 n).
Definition e_C (b pkh mu salt : bytes) : matrix :=
  Madd P 8 8 (Madd P 8 8 (Mmul P 8 n 8 (drawn_mat (e_rb pkh mu salt) 0 8 n) (unpacked P b n 8))
                (drawn_mat (e_rb pkh mu salt) (2 * 8 * n) 8 8)) (Menc P mu).

Lemma div8_mul x : (x * 8 / 8 = x)%nat.
Proof. apply Nat.div_mul. lia. Qed.

Lemma pack_8n C : is_mat 8 n C -> pack P C = Ok (packed P C) /\ length (packed P C) = (D * n)%nat.
Proof.
  intros HM. assert (E : (8 * (n * D) = (D * n) * 8)%nat) by ring. split.
  - apply (pack_ok P 8 n); [assumption|lia|]. rewrite E. apply Nat.mod_mul. lia.
  - rewrite (packed_length P 8 n) by assumption. rewrite E. apply div8_mul.
Qed.

Lemma pack_88 C : is_mat 8 8 C -> pack P C = Ok (packed P C) /\ length (packed P C) = (D * 8)%nat.
Proof.
  intros HM. assert (E : (8 * (8 * D) = (D * 8) * 8)%nat) by ring. split.
  - apply (pack_ok P 8 8); [assumption|lia|]. rewrite E. apply Nat.mod_mul. lia.
  - rewrite (packed_length P 8 8) by assumption. rewrite E. apply div8_mul.
Qed.

Lemma pack_n8 C : is_mat n 8 C -> pack P C = Ok (packed P C) /\ length (packed P C) = (D * n)%nat.
Proof.
  intros HM. assert (E : (n * (8 * D) = (D * n) * 8)%nat) by ring. split.
  - apply (pack_ok P n 8); [assumption|apply (g_n P HG)|]. rewrite E. apply Nat.mod_mul. lia.
  - rewrite (packed_length P n 8) by assumption. rewrite E. apply div8_mul.
Qed.

Lemma encode_8 k : length k = p_mu P -> encode P k = Ok (Menc P k).
Proof.
  intros Hk. rewrite encode_ok.
  - rewrite (g_nbar P HG), (g_mbar P HG). reflexivity.
  - apply (g_pow P HG).
  - rewrite (g_nbar P HG), (g_mbar P HG), Hk, (g_mu P HG). lia.
Qed.

Lemma decode_8 K : is_mat 8 8 K -> decode P K = Ok (Mdec P K).
Proof.
  intros HM. rewrite decode_ok.
  - rewrite (g_nbar P HG), (g_mbar P HG). reflexivity.
  - rewrite (g_nbar P HG), (g_mbar P HG). exact HM.
  - rewrite (g_mbar P HG). lia.
Qed.

Lemma Mdec_length K : length (Mdec P K) = p_mu P.
Proof.
  unfold Mdec. rewrite bytes_of_le_length, (g_mu P HG).
  replace (p_B P * 8 * 8)%nat with ((8 * p_B P) * 8)%nat by ring. apply div8_mul.
Qed.

Lemma Mdec_bytes K : is_bytes (Mdec P K) = true.
Proof. apply bytes_of_le_bytes. Qed.

Lemma decode_of K : is_mat 8 8 K -> decode P K = Ok (Mdec P K).
Proof. apply decode_8. Qed.

Theorem encaps_ok seedA b mu salt :
  length seedA = p_seedA P -> length b = (D * n)%nat -> length mu = p_mu P -> length salt = p_salt P ->
  let pk := seedA ++ b in
  let pkh := sh pk (p_pkh P) in
  let ct := packed P (e_Bp seedA pkh mu salt) ++ packed P (e_C b pkh mu salt) ++ salt in
  kem_encaps L P aes pk (mu ++ salt) = Ok (ct, sh (ct ++ e_k pkh mu salt) (p_ss P)).
Proof.
  intros HA Hb Hmu Hsalt pk pkh ct. pose proof (g_n P HG) as Hn.
  unfold kem_encaps. rewrite (g_nbar P HG), (g_mbar P HG).
  replace (Nat.eqb (8 * length pk) (8 * p_seedA P + D * n * 8)) with true
    by (symmetry; apply Nat.eqb_eq; unfold pk; rewrite app_length, HA, Hb; lia).
  cbn [guard bind].
  assert (E1 : slice 0 (p_seedA P) pk = seedA) by (apply slice_first; assumption).
  assert (E2 : skipn (p_seedA P) pk = b).
  { unfold pk. rewrite <- HA, skipn_app, skipn_all, Nat.sub_diag. reflexivity. }
  assert (E3 : slice 0 (p_mu P) (mu ++ salt) = mu) by (apply slice_first; assumption).
  assert (E4 : slice (p_mu P) (p_mu P + p_salt P) (mu ++ salt) = salt) by (apply slice_last; assumption).
  rewrite E1, E2, E3, E4. fold pkh. fold (e_sk pkh mu salt). fold (e_rb pkh mu salt). fold (e_k pkh mu salt).
  rewrite (sample_matrix_ok _ _ 0 (8 * n) 8 n) by lia. cbn [bind].
  rewrite (sample_matrix_ok _ _ (8 * n) (2 * 8 * n) 8 n) by lia. cbn [bind].
  rewrite (mul_ok P 8 n n) by (apply build_mat || apply gen_mat || lia). cbn [bind].
  rewrite (add_ok P 8 n) by (apply build_mat || lia). cbn [bind].
  fold (Mmul P 8 n n (drawn_mat (e_rb pkh mu salt) 0 8 n) (gen L P aes seedA)).
  fold (Madd P 8 n (Mmul P 8 n n (drawn_mat (e_rb pkh mu salt) 0 8 n) (gen L P aes seedA))
    (drawn_mat (e_rb pkh mu salt) (8 * n) 8 n)).
  fold (e_Bp seedA pkh mu salt).
  destruct (pack_8n (e_Bp seedA pkh mu salt) ltac:(apply build_mat)) as (HP1 & HP1').
  rewrite HP1. cbn [bind].
  rewrite (sample_matrix_ok _ _ (2 * 8 * n) (2 * 8 * n + 8 * 8) 8 8) by lia. cbn [bind].
  rewrite unpack_ok by lia. cbn [bind].
  rewrite (mul_ok P 8 n 8) by (apply build_mat || lia). cbn [bind].
  rewrite (add_ok P 8 8) by (apply build_mat || lia). cbn [bind].
  rewrite encode_8 by assumption. cbn [bind].
  rewrite (add_ok P 8 8) by (apply build_mat || lia). cbn [bind].
  fold (Mmul P 8 n 8 (drawn_mat (e_rb pkh mu salt) 0 8 n) (unpacked P b n 8)).
  fold (Madd P 8 8 (Mmul P 8 n 8 (drawn_mat (e_rb pkh mu salt) 0 8 n) (unpacked P b n 8))
                (drawn_mat (e_rb pkh mu salt) (2 * 8 * n) 8 8)).
  fold (Madd P 8 8 (Madd P 8 8 (Mmul P 8 n 8 (drawn_mat (e_rb pkh mu salt) 0 8 n) (unpacked P b n 8))
                (drawn_mat (e_rb pkh mu salt) (2 * 8 * n) 8 8)) (Menc P mu)).
  fold (e_C b pkh mu salt).
  destruct (pack_88 (e_C b pkh mu salt) ltac:(apply build_mat)) as (HP2 & HP2').
  rewrite HP2. cbn [bind]. fold ct.
  replace (Z.of_nat (length ct) =? p_ct P) with true.
  2:{ symmetry. apply Z.eqb_eq. rewrite (g_ct P HG). unfold ct. rewrite !app_length, HP1', HP2', Hsalt. lia. }
  cbn [guard bind]. rewrite sh_length, Nat.eqb_refl. cbn [guard bind].
  unfold ct. rewrite <- !app_assoc. reflexivity.
Qed.

(** * Comparison and selection in constant time *)

Lemma fold_lor (f : nat -> Z) : forall l a,
  fold_left (fun acc j => Z.lor acc (f j)) l a = 0 <-> a = 0 /\ forall j, In j l -> f j = 0.
Proof.
  induction l as [|j l IH]; intros a; simpl.
  - split; [intros ->; split; [reflexivity|tauto]|tauto].
  - rewrite IH, Z.lor_eq_0_iff. split.
    + intros ((Ha & Hj) & Hl). split; [assumption|]. intros x [<-|Hx]; auto.
    + intros (Ha & H). repeat split; auto.
Qed.

Lemma fold_lor2 (g : nat -> list nat) (f : nat -> nat -> Z) : forall l a,
  fold_left (fun acc i => fold_left (fun acc' j => Z.lor acc' (f i j)) (g i) acc) l a = 0 <->
  a = 0 /\ forall i j, In i l -> In j (g i) -> f i j = 0.
Proof.
  induction l as [|i l IH]; intros a; simpl.
  - split; [intros ->; split; [reflexivity|tauto]|tauto].
  - rewrite IH, fold_lor. split.
    + intros ((Ha & Hj) & Hl). split; [assumption|]. intros x y [<-|Hx] Hy; auto.
    + intros (Ha & H). split; [split; [assumption|]|]; intros; apply H; auto.
Qed.

Lemma ctverify_iff a b : length a = length b ->
  (forall i, (i < length a)%nat -> length (nth i a []) = length (nth i b [])) ->
  (ctverify a b = true <-> a = b).
Proof.
  intros HLn HR. unfold ctverify. rewrite Z.eqb_eq.
  rewrite (fold_lor2 (fun i => seq 0 (length (nth i a []))) (fun i j => Z.lxor (at_ a i j) (at_ b i j))).
  split.
  - intros (_ & H). apply (list_ext [] _ _ HLn). intros i Hi. apply (list_ext 0 _ _ (HR i Hi)).
    intros j Hj. specialize (H i j ltac:(apply in_seq; lia) ltac:(apply in_seq; lia)).
    exact (proj1 (Z.lxor_eq_0_iff _ _) H).
  - intros <-. split; [reflexivity|]. intros. apply Z.lxor_nilpotent.
Qed.

Lemma land_255 x : 0 <= x < 256 -> Z.land x 255 = x.
Proof. intros H. change 255 with (Z.ones 8). rewrite Z.land_ones by lia. apply Z.mod_small. exact H. Qed.

Lemma land_n256 x : 0 <= x < 256 -> Z.land x (Z.lnot 255) = 0.
Proof.
  intros H. rewrite <- Z.ldiff_land. change 255 with (Z.ones 8). rewrite Z.ldiff_ones_r by lia.
  rewrite Z.shiftr_div_pow2 by lia. change (2 ^ 8) with 256. rewrite Z.div_small by lia. reflexivity.
Qed.

Lemma ctselect_ok a b sel : length a = length b -> is_bytes a = true -> is_bytes b = true ->
  ctselect a b sel = if sel then a else b.
Proof.
  intros HLn Ha Hb. unfold ctselect. destruct sel.
  - change (fold_left _ _ 0) with 255.
    transitivity (map (fun i => nth i a 0) (seq 0 (length a))); [|symmetry; apply list_as_map].
    apply map_ext. intros i.
    rewrite land_255, land_n256 by (apply is_bytes_nth; assumption). apply Z.lor_0_r.
  - change (fold_left _ _ 0) with 0. rewrite HLn.
    transitivity (map (fun i => nth i b 0) (seq 0 (length b))); [|symmetry; apply list_as_map].
    apply map_ext. intros i.
    change (Z.lnot 0) with (-1). rewrite Z.land_0_r, Z.land_m1_r. apply Z.lor_0_l.
Qed.

(** * Decapsulation *)

Definition d_S (Sb : bytes) : matrix :=
  Mtr 8 n (build 8 n (fun i j => read_intle16 Sb (i * n + j))).
Definition d_M (Sb c1 c2 : bytes) : matrix :=
  Msub P 8 8 (unpacked P c2 8 8) (Mmul P 8 n 8 (unpacked P c1 8 n) (d_S Sb)).
Definition d_mu (Sb c1 c2 : bytes) : bytes := Mdec P (d_M Sb c1 c2).

Lemma packed_inj n1 n2 M N : is_mat n1 n2 M -> is_mat n1 n2 N -> ((n1 * (n2 * D)) mod 8 = 0)%nat ->
  (forall i j, (i < n1)%nat -> (j < n2)%nat -> 0 <= at_ M i j < 2 ^ Z.of_nat D) ->
  (forall i j, (i < n1)%nat -> (j < n2)%nat -> 0 <= at_ N i j < 2 ^ Z.of_nat D) ->
  packed P M = packed P N -> M = N.
Proof.
  intros HM HN H8 RM RN E. pose proof (unpacked_packed P n1 n2 M HM H8) as EM.
  pose proof (unpacked_packed P n1 n2 N HN H8) as EN. rewrite E, EN in EM.
  apply (mat_ext n1 n2 _ _ HM HN). intros i j Hi Hj.
  pose proof (build_inj _ _ _ _ EM i j Hi Hj) as H. cbv beta in H.
  rewrite !Z.mod_small in H by auto. symmetry. exact H.
Qed.

Lemma Madd_range a b X Y i j : (i < a)%nat -> (j < b)%nat -> 0 <= at_ (Madd P a b X Y) i j < 2 ^ Z.of_nat D.
Proof.
  intros Hi Hj. unfold Madd. rewrite at_build by assumption. destruct (g_pow P HG) as (E & _).
  rewrite E. apply Z.mod_pos_bound, pow2_pos.
Qed.

Lemma unpacked_at_range b n1 n2 i j : (i < n1)%nat -> (j < n2)%nat ->
  0 <= at_ (unpacked P b n1 n2) i j < 2 ^ Z.of_nat D.
Proof. intros Hi Hj. unfold unpacked. rewrite at_build by assumption. apply unpacked_range. Qed.

Lemma app_eq_len {A} (a b c d : list A) : length a = length b -> (a ++ c = b ++ d <-> a = b /\ c = d).
Proof.
  revert b. induction a as [|x a IH]; intros [|y b] H; simpl in *; try discriminate; [tauto|].
  injection H as H. split.
  - intros E. injection E as -> E. apply IH in E; [|assumption]. destruct E as (-> & ->). tauto.
  - intros (E & ->). injection E as -> ->. reflexivity.
Qed.

(** Comparing the matrices is comparing the ciphertexts. *)
Lemma compare_ct c1 c2 seedA b pkh mu salt :
  length c1 = (D * n)%nat -> length c2 = (D * 8)%nat -> is_bytes c1 = true -> is_bytes c2 = true ->
  let ct' := packed P (e_Bp seedA pkh mu salt) ++ packed P (e_C b pkh mu salt) ++ salt in
  ctverify (unpacked P c1 8 n ++ unpacked P c2 8 8) (e_Bp seedA pkh mu salt ++ e_C b pkh mu salt)
  = bytes_eqb (c1 ++ c2 ++ salt) ct'.
Proof.
  intros H1 H2 B1 B2 ct'.
  set (U1 := unpacked P c1 8 n). set (U2 := unpacked P c2 8 8).
  set (V1 := e_Bp seedA pkh mu salt) in *. set (V2 := e_C b pkh mu salt) in *.
  assert (MU1 : is_mat 8 n U1) by apply build_mat. assert (MU2 : is_mat 8 8 U2) by apply build_mat.
  assert (MV1 : is_mat 8 n V1) by apply build_mat. assert (MV2 : is_mat 8 8 V2) by apply build_mat.
  assert (Hrows : forall X Y X' Y', is_mat 8 n X -> is_mat 8 8 Y -> is_mat 8 n X' -> is_mat 8 8 Y' ->
    forall i, (i < length (X ++ Y))%nat -> length (nth i (X ++ Y) []) = length (nth i (X' ++ Y') [])).
  { intros X Y X' Y' (X1 & X2) (Y1 & Y2) (X1' & X2') (Y1' & Y2') i Hi. rewrite app_length in Hi.
    destruct (Nat.lt_ge_cases i 8) as [Hlt|Hge].
    - rewrite !app_nth1 by lia. rewrite X2, X2' by (apply nth_In; lia). reflexivity.
    - rewrite !app_nth2 by lia. rewrite Y2, Y2' by (apply nth_In; lia). reflexivity. }
  assert (HLn : length (U1 ++ U2) = length (V1 ++ V2)).
  { rewrite !app_length. destruct MU1 as (-> & _), MU2 as (-> & _), MV1 as (-> & _), MV2 as (-> & _). reflexivity. }
  assert (Hiff : ctverify (U1 ++ U2) (V1 ++ V2) = true <-> c1 ++ c2 ++ salt = ct').
  { rewrite (ctverify_iff _ _ HLn (Hrows U1 U2 V1 V2 MU1 MU2 MV1 MV2)).
    rewrite app_eq_len by (destruct MU1 as (-> & _), MV1 as (-> & _); reflexivity).
    unfold ct'. destruct (pack_8n V1 MV1) as (_ & L1). destruct (pack_88 V2 MV2) as (_ & L2).
    rewrite (app_eq_len c1) by lia. rewrite (app_eq_len c2) by lia.
    assert (E1 : packed P U1 = c1) by (apply packed_unpacked; [lia|assumption]).
    assert (E2 : packed P U2 = c2) by (apply packed_unpacked; [lia|assumption]).
    split.
    - intros (E & E'). rewrite <- E1, <- E2, E, E'. tauto.
    - intros (E & E' & _). rewrite <- E1 in E. rewrite <- E2 in E'. split.
      + apply (packed_inj 8 n); try assumption.
        * replace (8 * (n * D))%nat with ((n * D) * 8)%nat by ring. apply Nat.mod_mul. lia.
        * intros; apply unpacked_at_range; assumption.
        * intros; apply Madd_range; assumption.
      + apply (packed_inj 8 8); try assumption.
        * replace (8 * (8 * D))%nat with ((8 * D) * 8)%nat by ring. apply Nat.mod_mul. lia.
        * intros; apply unpacked_at_range; assumption.
        * intros; apply Madd_range; assumption. }
  destruct (bytes_eqb_spec (c1 ++ c2 ++ salt) ct') as [E|E].
  - apply Hiff, E.
  - destruct (ctverify (U1 ++ U2) (V1 ++ V2)); [|reflexivity]. exfalso. apply E, Hiff. reflexivity.
Qed.

Theorem decaps_ok s seedA b Sb pkh c1 c2 salt :
  length s = p_s P -> length seedA = p_seedA P -> length b = (D * n)%nat ->
  length Sb = (2 * (8 * n))%nat -> length pkh = p_pkh P ->
  length c1 = (D * n)%nat -> length c2 = (D * 8)%nat -> length salt = p_salt P ->
  is_bytes s = true -> is_bytes c1 = true -> is_bytes c2 = true ->
  let mu := d_mu Sb c1 c2 in
  let ct := c1 ++ c2 ++ salt in
  let ct' := packed P (e_Bp seedA pkh mu salt) ++ packed P (e_C b pkh mu salt) ++ salt in
  kem_decaps L P aes (s ++ seedA ++ b ++ Sb ++ pkh) ct =
  Ok (sh (ct ++ (if bytes_eqb ct ct' then e_k pkh mu salt else s)) (p_ss P)).
Proof.
  intros Hs HA Hb HSb Hpkh H1 H2 Hsalt Bs B1 B2 mu ct ct'. pose proof (g_n P HG) as Hn.
  unfold kem_decaps. rewrite (g_nbar P HG), (g_mbar P HG).
  replace (Z.of_nat (length ct) =? p_ct P) with true.
  2:{ symmetry. apply Z.eqb_eq. rewrite (g_ct P HG). unfold ct. rewrite !app_length. lia. }
  cbn [guard bind].
  replace (Z.of_nat (length (s ++ seedA ++ b ++ Sb ++ pkh)) =? p_sk P) with true.
  2:{ symmetry. apply Z.eqb_eq. rewrite (g_sk P HG). rewrite !app_length. lia. }
  cbn [guard bind].
  assert (L1 : (8 * n * D / 8 = D * n)%nat) by (replace (8 * n * D)%nat with (D * n * 8)%nat by ring; apply div8_mul).
  assert (L2 : (8 * 8 * D / 8 = D * 8)%nat) by (replace (8 * 8 * D)%nat with (D * 8 * 8)%nat by ring; apply div8_mul).
  assert (L3 : (D * n * 8 / 8 = D * n)%nat) by apply div8_mul.
  assert (L4 : (n * 8 * 16 / 8 = 2 * (8 * n))%nat) by (replace (n * 8 * 16)%nat with (2 * (8 * n) * 8)%nat by ring; apply div8_mul).
  rewrite L1, L2, L3, L4.
  assert (E1 : slice 0 (D * n) ct = c1) by (apply slice_first; assumption).
  assert (E2 : slice (D * n) (D * n + D * 8) ct = c2) by (apply slice_mid; assumption).
  assert (E3 : slice (D * n + D * 8) (D * n + D * 8 + p_salt P) ct = salt).
  { unfold ct. rewrite app_assoc. apply slice_last; [rewrite app_length; lia|assumption]. }
  rewrite E1, E2, E3.
  set (sk := s ++ seedA ++ b ++ Sb ++ pkh).
  assert (S1 : slice 0 (p_s P) sk = s) by (apply slice_first; assumption).
  assert (S2 : slice (p_s P) (p_s P + p_seedA P) sk = seedA) by (apply slice_mid; assumption).
  assert (S3 : slice (p_s P + p_seedA P) (p_s P + p_seedA P + D * n) sk = b).
  { unfold sk. rewrite (app_assoc s). apply slice_mid; [rewrite app_length; lia|assumption]. }
  assert (S4 : slice (p_s P + p_seedA P + D * n) (p_s P + p_seedA P + D * n + 2 * (8 * n)) sk = Sb).
  { unfold sk. rewrite (app_assoc s), (app_assoc (s ++ seedA)). apply slice_mid; [rewrite !app_length; lia|assumption]. }
  assert (S5 : slice (p_s P + p_seedA P + D * n + 2 * (8 * n)) (p_s P + p_seedA P + D * n + 2 * (8 * n) + p_pkh P) sk = pkh).
  { unfold sk. rewrite (app_assoc s), (app_assoc (s ++ seedA)), (app_assoc ((s ++ seedA) ++ b)).
    apply slice_last; [rewrite !app_length; lia|assumption]. }
  rewrite S1, S2, S3, S4, S5. clear S1 S2 S3 S4 S5 E1 E2 E3.
  rewrite (transpose_ok 8 n) by (apply build_mat || lia). cbn [bind].
  fold (Mtr 8 n (build 8 n (fun i j => read_intle16 Sb (i * n + j)))). fold (d_S Sb).
  rewrite unpack_ok by lia. cbn [bind]. rewrite unpack_ok by lia. cbn [bind].
  rewrite (mul_ok P 8 n 8) by (apply build_mat || lia). cbn [bind].
  rewrite (sub_ok P 8 8) by (apply build_mat || lia). cbn [bind].
  fold (Mmul P 8 n 8 (unpacked P c1 8 n) (d_S Sb)).
  fold (Msub P 8 8 (unpacked P c2 8 8) (Mmul P 8 n 8 (unpacked P c1 8 n) (d_S Sb))).
  fold (d_M Sb c1 c2).
  rewrite decode_8 by apply build_mat. cbn [bind]. fold (d_mu Sb c1 c2). fold mu.
  fold (e_sk pkh mu salt). fold (e_rb pkh mu salt). fold (e_k pkh mu salt).
  rewrite (sample_matrix_ok _ _ 0 (8 * n) 8 n) by lia. cbn [bind].
  rewrite (sample_matrix_ok _ _ (8 * n) (2 * 8 * n) 8 n) by lia. cbn [bind].
  rewrite (mul_ok P 8 n n) by (apply build_mat || apply gen_mat || lia). cbn [bind].
  rewrite (add_ok P 8 n) by (apply build_mat || lia). cbn [bind].
  fold (Mmul P 8 n n (drawn_mat (e_rb pkh mu salt) 0 8 n) (gen L P aes seedA)).
  fold (Madd P 8 n (Mmul P 8 n n (drawn_mat (e_rb pkh mu salt) 0 8 n) (gen L P aes seedA))
    (drawn_mat (e_rb pkh mu salt) (8 * n) 8 n)).
  fold (e_Bp seedA pkh mu salt).
  rewrite (sample_matrix_ok _ _ (2 * 8 * n) (2 * 8 * n + 8 * 8) 8 8) by lia. cbn [bind].
  rewrite unpack_ok by lia. cbn [bind].
  rewrite (mul_ok P 8 n 8) by (apply build_mat || lia). cbn [bind].
  rewrite (add_ok P 8 8) by (apply build_mat || lia). cbn [bind].
  rewrite encode_8 by apply Mdec_length. cbn [bind].
  rewrite (add_ok P 8 8) by (apply build_mat || lia). cbn [bind].
  fold (Mmul P 8 n 8 (drawn_mat (e_rb pkh mu salt) 0 8 n) (unpacked P b n 8)).
  fold (Madd P 8 8 (Mmul P 8 n 8 (drawn_mat (e_rb pkh mu salt) 0 8 n) (unpacked P b n 8))
                (drawn_mat (e_rb pkh mu salt) (2 * 8 * n) 8 8)).
  fold (Madd P 8 8 (Madd P 8 8 (Mmul P 8 n 8 (drawn_mat (e_rb pkh mu salt) 0 8 n) (unpacked P b n 8))
                (drawn_mat (e_rb pkh mu salt) (2 * 8 * n) 8 8)) (Menc P mu)).
  fold (e_C b pkh mu salt).
  rewrite (compare_ct c1 c2 seedA b pkh mu salt H1 H2 B1 B2). fold ct. fold ct'.
  rewrite ctselect_ok; [| |apply is_bytes_slice, sh_bytes|assumption].
  - rewrite sh_length, Nat.eqb_refl. cbn [guard bind]. unfold ct. rewrite <- !app_assoc. reflexivity.
  - unfold e_k, e_sk. rewrite slice_length by (rewrite ?sh_length; lia). rewrite (g_k P HG). lia.
Qed.

End Kem.
