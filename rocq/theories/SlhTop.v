(** The statements of SlhProperties.v that are not yet proved elsewhere. *)
From Verif Require Import SlhSpec LatFacts SlhDigits SlhChecksum SlhWots SlhTree SlhHt SlhBind SlhWitness.
From Coq Require Import Lia.
Local Open Scope Z_scope.

(** * Digits and integers *)
Lemma to_int_to_byte x l : to_int (be l x) l = Ok (x mod 256 ^ Z.of_nat l).
Proof.
  rewrite to_int_ok by (rewrite be_length; lia). rewrite firstn_all2 by (rewrite be_length; lia). rewrite from_be_be. reflexivity.
Qed.
Lemma to_byte_to_int s x : is_bytes s = true -> to_int s (length s) = Ok x -> be (length s) x = s.
Proof.
  intros H E. rewrite to_int_ok in E by lia. rewrite firstn_all in E. assert (x = from_be s) by congruence. subst x.
  apply be_from_be. exact H.
Qed.

(** * Address bytes *)
Lemma nth_skipn' {A} (l : list A) j q dft : nth q (skipn j l) dft = nth (j + q) l dft.
Proof.
  revert l. induction j as [|j IH]; intro l; [reflexivity|]. destruct l as [|x l]; [destruct q; reflexivity|]. apply IH.
Qed.
Lemma nth_firstn' {A} (l : list A) j q dft : (q < j)%nat -> nth q (firstn j l) dft = nth q l dft.
Proof.
  revert l q. induction j as [|j IH]; intros l q H; [lia|]. destruct l as [|x l]; [reflexivity|]. destruct q as [|q]; [reflexivity|].
  cbn [firstn nth]. apply IH. lia.
Qed.
Lemma nth_set_slice i j v (A : bytes) q dft : (i <= j)%nat -> (j <= length A)%nat -> length v = (j - i)%nat ->
  nth q (set_slice i j v A) dft = if ((i <=? q) && (q <? j))%nat then nth (q - i) v dft else nth q A dft.
Proof.
  intros Hij Hj Lv. unfold set_slice.
  destruct (Nat.leb_spec i q) as [H1|H1]; cbn [andb].
  - rewrite app_nth2 by (rewrite firstn_length; lia). rewrite firstn_length, Nat.min_l by lia.
    destruct (Nat.ltb_spec q j) as [H2|H2].
    + rewrite app_nth1 by lia. reflexivity.
    + rewrite app_nth2 by lia. rewrite nth_skipn'. f_equal. lia.
  - rewrite app_nth1 by (rewrite firstn_length; lia). rewrite nth_firstn' by lia. reflexivity.
Qed.
Lemma set_slice_length i j v (A : bytes) : (i <= j)%nat -> (j <= length A)%nat -> length v = (j - i)%nat -> length (set_slice i j v A) = length A.
Proof. intros. unfold set_slice. rewrite !app_length, firstn_length, skipn_length. lia. Qed.

(** [B] is [A] with the bytes from [i] to [j] replaced by the big endian number [x]. *)
Definition field_written (i j : nat) (x : Z) (A B : bytes) : Prop :=
  length B = length A /\ from_be (slice i j B) = x /\
  forall q, (q < i \/ j <= q)%nat -> nth q B 0 = nth q A 0.

Lemma set_slice_field i j x A : (i <= j)%nat -> length A = 32%nat -> (j <= 32)%nat -> 0 <= x < 256 ^ Z.of_nat (j - i) ->
  field_written i j x A (set_slice i j (be (j - i) x) A).
Proof.
  intros Hij LA Hj Hx. split; [apply set_slice_length; [exact Hij|lia|apply be_length]|]. split.
  - unfold set_slice. rewrite (slice_mid (firstn i A)).
    + rewrite from_be_be. apply Z.mod_small. exact Hx.
    + rewrite firstn_length. lia.
    + rewrite app_length, firstn_length, be_length. lia.
  - intros q Hq. rewrite nth_set_slice by (try lia; apply be_length).
    destruct Hq as [Hq|Hq].
    + rewrite (proj2 (Nat.leb_gt _ _)) by lia. reflexivity.
    + rewrite (proj2 (Nat.ltb_ge _ _)) by lia. rewrite andb_false_r. reflexivity.
Qed.

Lemma set_type_bytes t A : length A = 32%nat -> 0 <= t < 2 ^ 32 ->
  length (set_type_and_clear t A) = 32%nat /\ from_be (slice 16 20 (set_type_and_clear t A)) = t /\
  (forall q, (q < 16)%nat -> nth q (set_type_and_clear t A) 0 = nth q A 0) /\
  (forall q, (20 <= q < 32)%nat -> nth q (set_type_and_clear t A) 0 = 0).
Proof.
  intros LA Ht. unfold set_type_and_clear.
  destruct (set_slice_field 16 20 t A ltac:(lia) LA ltac:(lia) ltac:(exact Ht)) as (L1 & F1 & N1). change (20 - 16)%nat with 4%nat in *.
  set (B := set_slice 16 20 (be 4 t) A) in *.
  assert (LB : length B = 32%nat) by lia.
  split; [rewrite set_slice_length; [exact LB|lia|lia|reflexivity]|]. split; [|split].
  - rewrite <- F1. f_equal. unfold slice, set_slice. change (20 - 16)%nat with 4%nat.
    rewrite skipn_app, firstn_app. rewrite skipn_length, firstn_length.
    replace (4 - (Nat.min 20 (length B) - 16))%nat with 0%nat by lia. rewrite firstn_O, app_nil_r.
    rewrite skipn_firstn_comm, firstn_firstn. reflexivity.
  - intros q Hq. rewrite nth_set_slice by (try lia; reflexivity). rewrite (proj2 (Nat.leb_gt _ _)) by lia. apply N1. lia.
  - intros q Hq. rewrite nth_set_slice by (try lia; reflexivity).
    rewrite (proj2 (Nat.leb_le _ _)), (proj2 (Nat.ltb_lt _ _)) by lia. cbn [andb].
    rewrite nth_repeat. reflexivity.
Qed.

(** Compression loses nothing when the dropped bytes are zero. *)
Definition small_address (A : bytes) : Prop :=
  length A = 32%nat /\ slice 0 3 A = [0; 0; 0] /\ slice 4 8 A = [0; 0; 0; 0] /\ slice 16 19 A = [0; 0; 0].
Lemma split32 (A : bytes) : length A = 32%nat ->
  A = slice 0 3 A ++ slice 3 4 A ++ slice 4 8 A ++ slice 8 16 A ++ slice 16 19 A ++ slice 19 20 A ++ slice 20 32 A.
Proof.
  intro L. do 32 (destruct A as [|? A]; [discriminate L|]). destruct A; [reflexivity|discriminate L].
Qed.
Lemma adrsc_small A B : small_address A -> small_address B -> adrsc A = adrsc B -> A = B.
Proof.
  intros (LA & A1 & A2 & A3) (LB & B1 & B2 & B3) E. unfold adrsc in E.
  assert (SL : forall i j (X : bytes), length X = 32%nat -> (i <= j <= 32)%nat -> length (slice i j X) = (j - i)%nat)
    by (intros; unfold slice; rewrite firstn_length, skipn_length; lia).
  apply app_inj in E; [|rewrite !SL by lia; reflexivity]. destruct E as [E1 E].
  apply app_inj in E; [|rewrite !SL by lia; reflexivity]. destruct E as [E2 E].
  apply app_inj in E; [|rewrite !SL by lia; reflexivity]. destruct E as [E3 E4].
  rewrite (split32 A LA), (split32 B LB), A1, A2, A3, B1, B2, B3, E1, E2, E3, E4. reflexivity.
Qed.

(** * Layers *)
Section Layers.
Variable hs : raw.
Variable p : params.
Hypothesis Hraw : raw_ok hs.
Hypothesis Hwf : wfb p = true.
Variables sk pk : bytes.

Lemma wots_roundtrip l t kp b c msg : 0 <= kp < 2 ^ 32 -> length msg = n p ->
  exists sg pkw A1 A2 A3, wots_sign hs p msg sk pk (adr l t WOTS_HASH kp b c) = Ok (sg, A1) /\
    wots_pk_from_sig hs p sg msg pk (adr l t WOTS_HASH kp b c) = Ok (pkw, A2) /\
    wots_pkgen hs p sk pk (adr l t WOTS_HASH kp b c) = Ok (pkw, A3).
Proof.
  intros Hk Lm. destruct (dig_ok p Hwf msg Lm) as (E & Lv & Rv).
  destruct (wots_sign_ok hs p Hwf sk pk l t kp msg _ b c Hk Lm E) as (b1 & c1 & S).
  destruct (wots_pkgen_ok hs p Hwf sk pk l t kp b c Hk) as (b2 & c2 & G).
  destruct (wots_pk_from_sig_ok hs p Hwf pk l t kp (wots_sigS hs p sk pk l t kp (dig p msg)) msg _ b c Hk Lm E) as (b3 & c3 & V).
  eexists _, _, _, _, _. split; [exact S|]. split; [|exact G]. rewrite V. f_equal. f_equal.
  rewrite <- (app_nil_r (wots_sigS hs p sk pk l t kp (dig p msg))). apply wots_from_sig; assumption.
Qed.

Lemma xmss_roundtrip l t y kp b c idx msg : 0 <= idx < 2 ^ Z.of_nat (hp p) -> length msg = n p ->
  exists sg root A1 A2 A3, xmss_sign hs p msg sk idx pk (adr l t y kp b c) = Ok (sg, A1) /\
    xmss_pk_from_sig hs p idx sg msg pk (adr l t y kp b c) = Ok (root, A2) /\
    xmss_node hs p sk 0 (hp p) pk (adr l t y kp b c) = Ok (root, A3).
Proof.
  intros Hi Lm. destruct (dig_ok p Hwf msg Lm) as (E & Lv & Rv).
  destruct (xmss_sign_ok hs p Hwf sk pk l t idx msg _ y kp b c Hi Lm E) as (y1 & k1 & b1 & c1 & S).
  destruct (xmss_node_ok hs p Hwf sk pk l t (hp p) 0 y kp b c) as (y2 & k2 & b2 & c2 & G); [lia|split; [lia|apply Z.pow_pos_nonneg; lia]|].
  destruct (xmss_pk_from_sig_ok hs p Hwf pk l t idx (xmss_sigS hs p sk pk l t idx (dig p msg)) msg _ y kp b c Hi Lm E) as (y3 & k3 & b3 & c3 & V).
  eexists _, _, _, _, _. split; [exact S|]. split; [|exact G]. rewrite V. f_equal. f_equal. apply xmss_from_sig0; assumption.
Qed.

Lemma fors_roundtrip t kp b c md : 0 <= kp < 2 ^ 32 -> length md = Nat.div (k p * a p + 7) 8 ->
  exists sg A1 A2, fors_sign hs p md sk pk (adr 0 t FORS_TREE kp b c) = Ok (sg, A1) /\
    fors_pk_from_sig hs p sg md pk (adr 0 t FORS_TREE kp b c) = Ok (fors_pkS hs p sk pk t kp, A2).
Proof.
  intros Hk Lm. destruct (idxs_of p md Lm) as (v & E & Hv).
  destruct (fors_sign_ok hs p sk pk t kp md v b c Hk E Hv) as (b1 & c1 & S).
  destruct (fors_pk_from_sig_ok hs p Hwf pk t kp (fors_sigS hs p sk pk t kp v) md v b c Hk E Hv) as (b2 & c2 & V).
  eexists _, _, _. split; [exact S|]. rewrite V. f_equal. f_equal. apply fors_from_sig0; assumption.
Qed.

Lemma fors_root_nodes t kp i b c : 0 <= kp < 2 ^ 32 -> (i < k p)%nat ->
  exists A, fors_node hs p sk (Z.of_nat i) (a p) pk (adr 0 t FORS_TREE kp b c) = Ok (fnode hs p sk pk t kp (a p) (Z.of_nat i), A).
Proof.
  intros Hk Hi. destruct (fors_node_ok hs p sk pk t kp Hk (a p) (Z.of_nat i) b c) as (b1 & c1 & E); [lia| |eexists; exact E].
  rewrite Nat.sub_diag. change (2 ^ Z.of_nat 0) with 1. lia.
Qed.

Lemma ht_roundtrip msg T L : 0 <= L < 2 ^ Z.of_nat (hp p) -> 0 <= T < 2 ^ Z.of_nat (h p - hp p) -> length msg = n p ->
  exists sg, ht_sign hs p msg sk pk T L = Ok sg /\ ht_verify hs p msg sg pk T L (top_root hs p sk pk) = Ok true.
Proof.
  intros HL HT Lm. eexists. split; [apply ht_sign_ok; assumption|].
  rewrite ht_verify_ok by assumption. f_equal.
  rewrite <- (app_nil_r (ht_sigS hs p sk pk msg T L)). rewrite ht_from_sig by assumption. apply bytes_eqb_refl.
Qed.
End Layers.

(** * The public functions *)
Lemma wf_of p : In p param_sets -> wfb p = true.
Proof. intro H. pose proof param_sets_wf as W. rewrite forallb_forall in W. apply W. exact H. Qed.

Section Public.
Variable hs : raw.
Variable p : params.
Hypothesis Hraw : raw_ok hs.
Hypothesis Hwf : wfb p = true.

Lemma ctx_ok (ctx : bytes) : (length ctx <= 255)%nat -> (255 <? length ctx)%nat = false.
Proof. intro H. apply Nat.ltb_ge. exact H. Qed.

Lemma public_roundtrip sk_seed sk_prf pk_seed msg ctx rnd :
  length sk_seed = n p -> length sk_prf = n p -> length pk_seed = n p -> (length ctx <= 255)%nat ->
  exists pk sk s, slh_keygen_internal hs p sk_seed sk_prf pk_seed = Ok (pk, sk) /\
    length pk = pk_sz p /\ length sk = sk_sz p /\
    slh_sign hs p msg ctx sk rnd = Ok (Some s) /\ length s = sig_sz p /\ slh_verify hs p msg s ctx pk = Ok true.
Proof.
  intros L1 L2 L3 Lc. pose proof (keygen_ok hs p Hwf sk_seed sk_prf pk_seed) as K.
  set (pk := pk_seed ++ _) in K. set (sk := sk_seed ++ _) in K.
  destruct (sign_total hs p Hraw Hwf (pure_msg ctx msg) sk rnd) as (s & S & Ls).
  assert (Lr : length (top_root hs p sk_seed pk_seed) = n p) by (apply xnode_length; assumption).
  exists pk, sk, s. split; [exact K|]. split; [unfold pk; rewrite app_length, L3, Lr; unfold pk_sz; lia|].
  split; [unfold sk, pk; rewrite !app_length, L1, L2, L3, Lr; unfold sk_sz; lia|]. split; [unfold slh_sign; rewrite ctx_ok by exact Lc; rewrite S; reflexivity|].
  split; [exact Ls|]. unfold slh_verify. rewrite ctx_ok by exact Lc.
  exact (sign_verify hs p Hraw Hwf sk_seed sk_prf pk_seed pk sk _ rnd s L1 L2 L3 K S).
Qed.

Lemma long_context (ctx msg sk sg pk : bytes) rnd : (255 < length ctx)%nat ->
  slh_sign hs p msg ctx sk rnd = Ok None /\ slh_verify hs p msg sg ctx pk = Ok false.
Proof.
  intro H. unfold slh_sign, slh_verify. rewrite (proj2 (Nat.ltb_lt _ _) H). split; reflexivity.
Qed.

Lemma verify_never_raises msg sg ctx pk : exists b, slh_verify hs p msg sg ctx pk = Ok b /\
  (b = true -> length sg = sig_sz p /\ length pk = pk_sz p /\ (length ctx <= 255)%nat).
Proof.
  unfold slh_verify. destruct (Nat.ltb_spec 255 (length ctx)) as [H|H]; [exists false; split; [reflexivity|discriminate]|].
  destruct (verify_total hs p Hraw Hwf (pure_msg ctx msg) sg pk) as (b & E). exists b. split; [exact E|]. intros ->.
  unfold slh_verify_internal in E. destruct (length sg =? sig_sz p)%nat eqn:Q1; [|discriminate E].
  destruct (length pk =? pk_sz p)%nat eqn:Q2; [|discriminate E]. apply Nat.eqb_eq in Q1, Q2. repeat split; assumption.
Qed.

Lemma sign_never_raises msg sk ctx rnd : exists r, slh_sign hs p msg ctx sk rnd = Ok r.
Proof.
  unfold slh_sign. destruct (255 <? length ctx)%nat; [eexists; reflexivity|].
  destruct (sign_total hs p Hraw Hwf (pure_msg ctx msg) sk rnd) as (s & -> & _). eexists. reflexivity.
Qed.
End Public.

(** * The signed strings *)
Lemma byte1_inj x y : 0 <= x < 256 -> 0 <= y < 256 -> byte1 x = byte1 y -> x = y.
Proof.
  unfold byte1. intros Hx Hy E. assert (E2 : Z.land x 255 = Z.land y 255) by congruence.
  change 255 with (Z.ones 8) in E2. rewrite !Z.land_ones in E2 by lia. rewrite !Z.mod_small in E2 by lia. exact E2.
Qed.
Lemma ctx_split (d0 : bytes) (c1 c2 x1 x2 : bytes) : (length c1 <= 255)%nat -> (length c2 <= 255)%nat ->
  d0 ++ byte1 (Z.of_nat (length c1)) ++ c1 ++ x1 = d0 ++ byte1 (Z.of_nat (length c2)) ++ c2 ++ x2 -> c1 = c2 /\ x1 = x2.
Proof.
  intros L1 L2 E. apply app_inv_head in E. apply app_inj in E; [|reflexivity]. destruct E as [E1 E2].
  apply byte1_inj in E1; [|lia|lia]. apply app_inj in E2; [exact E2|lia].
Qed.
Lemma pure_msg_inj c1 c2 m1 m2 : (length c1 <= 255)%nat -> (length c2 <= 255)%nat -> pure_msg c1 m1 = pure_msg c2 m2 -> c1 = c2 /\ m1 = m2.
Proof. intros L1 L2 E. apply (ctx_split (byte1 0)); assumption. Qed.
Lemma pre_msg_eq hs ctx x m : pre_msg hs ctx x m = byte1 1 ++ byte1 (Z.of_nat (length ctx)) ++ ctx ++ fst (ph_digest hs x m) ++ snd (ph_digest hs x m).
Proof. unfold pre_msg. destruct (ph_digest hs x m). reflexivity. Qed.
Lemma pre_msg_inj hs c1 c2 x1 x2 m1 m2 : (length c1 <= 255)%nat -> (length c2 <= 255)%nat -> pre_msg hs c1 x1 m1 = pre_msg hs c2 x2 m2 ->
  c1 = c2 /\ x1 = x2 /\ snd (ph_digest hs x1 m1) = snd (ph_digest hs x2 m2).
Proof.
  intros L1 L2 E. rewrite !pre_msg_eq in E. apply ctx_split in E; [|exact L1|exact L2]. destruct E as [E1 E2]. split; [exact E1|].
  destruct x1, x2; cbn [ph_digest fst snd] in *; try discriminate E2; (split; [reflexivity|]);
  apply app_inj in E2; try reflexivity; apply E2.
Qed.
Lemma pure_pre_disjoint hs c1 c2 m1 x m2 : pure_msg c1 m1 <> pre_msg hs c2 x m2.
Proof. rewrite pre_msg_eq. unfold pure_msg. cbn [byte1 app]. discriminate. Qed.

(** * Names of pre-hash functions *)
Lemma no_common_name hs p msg ctx ph sk rnd s pk sg : hash_slh_sign hs p msg ctx ph sk rnd = Ok (Some s) ->
  hash_slh_verify hs p pk msg sg ctx ph = Err EValueError.
Proof.
  unfold hash_slh_sign, hash_slh_verify. destruct (255 <? length ctx)%nat; [discriminate|]. destruct ph; [reflexivity| |]; discriminate.
Qed.

(** * The shape of a signature *)
Lemma signed_shape hs p : raw_ok hs -> wfb p = true -> forall sk_seed sk_prf pk_seed pk sk msg rnd s,
  length sk_seed = n p -> length sk_prf = n p -> length pk_seed = n p ->
  slh_keygen_internal hs p sk_seed sk_prf pk_seed = Ok (pk, sk) ->
  slh_sign_internal hs p msg sk rnd = Ok s ->
  exists t l v, md_of hs p (firstn (n p) s) pk_seed (skipn (n p) pk) msg = (v, t, l) /\
   s = firstn (n p) s ++ fors_sigS hs p sk_seed pk_seed t l v ++ ht_sigS hs p sk_seed pk_seed (fors_pkS hs p sk_seed pk_seed t l) t l.
Proof.
  intros HO HW sk_seed sk_prf pk_seed pk sk msg rnd s L1 L2 L3 K S. rewrite (keygen_ok hs p HW) in K.
  assert (E1 : pk = pk_seed ++ top_root hs p sk_seed pk_seed) by congruence.
  assert (E2 : sk = sk_seed ++ sk_prf ++ pk_seed ++ top_root hs p sk_seed pk_seed) by congruence.
  set (root := top_root hs p sk_seed pk_seed) in *.
  pose proof (sign_internal_ok hs p HO HW msg sk rnd) as SI. cbv zeta in SI.
  replace (slice 0 (n p) sk) with sk_seed in SI by (rewrite E2; symmetry; apply (slice_mid []); [reflexivity|exact L1]).
  replace (slice (2 * n p) (3 * n p) sk) with pk_seed in SI.
  2: { rewrite E2, app_assoc. symmetry. apply slice_mid; rewrite !app_length; lia. }
  replace (skipn (3 * n p) sk) with root in SI.
  2: { rewrite E2, !app_assoc. symmetry. apply skipn_app_exact. rewrite !app_length. lia. }
  set (r := prf_msg hs p _ _ msg) in *.
  replace (skipn (n p) pk) with root by (rewrite E1; symmetry; apply skipn_app_exact; exact L3).
  destruct (md_of hs p r pk_seed root msg) as [[v t] l] eqn:EM. rewrite S in SI.
  assert (Es : s = r ++ fors_sigS hs p sk_seed pk_seed t l v ++ ht_sigS hs p sk_seed pk_seed (fors_pkS hs p sk_seed pk_seed t l) t l) by congruence.
  assert (Er : firstn (n p) s = r) by (rewrite Es; apply firstn_app_exact; apply prf_msg_length; assumption).
  exists t, l, v. rewrite Er. split; [exact EM|exact Es].
Qed.
