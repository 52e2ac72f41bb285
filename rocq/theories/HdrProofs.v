(** Proofs for HdrProperties.v. *)
From Coq Require Import String.
From Verif Require Import Prelude PreludeFacts HdrModel HdrSpec.
Open Scope Z_scope.

Lemma guard_ok c e : guard c e = Ok tt <-> c = true.
Proof. destruct c; cbn; split; congruence. Qed.

Lemma bind_ok {A B} (r : result A) (f : A -> result B) b :
  bind r f = Ok b <-> exists a, r = Ok a /\ f a = Ok b.
Proof.
  destruct r; cbn; split; intros H.
  - eauto.
  - destruct H as [a' [E H]]. congruence.
  - discriminate.
  - destruct H as [a' [E H]]. discriminate.
Qed.

Lemma bytes_eqb_iff a b : bytes_eqb a b = true <-> a = b.
Proof.
  revert b. induction a as [|x a IH]; intros [|y b]; cbn; split; intros H; try congruence; auto.
  - apply andb_prop in H. destruct H as [H1 H2]. apply Z.eqb_eq in H1. apply IH in H2. congruence.
  - injection H as -> ->. rewrite Z.eqb_refl. apply IH. reflexivity.
Qed.

Lemma bname_eqb_iff a b : bname_beq a b = true <-> a = b.
Proof. split; [apply internal_bname_dec_bl | apply internal_bname_dec_lb]. Qed.

Lemma is_value_iff {A} (o : option A) : is_value o = true <-> o <> None.
Proof. destruct o; cbn; split; congruence. Qed.

(** ** Hamming distance *)

Lemma popcount_bits n : forall x, 0 <= x ->
  popcount n x =
  Z.of_nat (List.length (filter (fun i => Z.testbit x (Z.of_nat i)) (seq 0 n))).
Proof.
  induction n as [|n IH]; intros x Hx; [reflexivity|].
  cbn [popcount seq filter].
  assert (E : forall k m, List.length (filter (fun i => Z.testbit x (Z.of_nat i)) (seq (S k) m))
                    = List.length (filter (fun i => Z.testbit (x / 2) (Z.of_nat i)) (seq k m))).
  { intros k m. revert k. induction m as [|m IHm]; intros k; [reflexivity|].
    cbn [seq filter].
    assert (Z.testbit x (Z.of_nat (S k)) = Z.testbit (x / 2) (Z.of_nat k)) as ->.
    { rewrite <- Z.div2_div. rewrite Z.div2_spec, Z.shiftr_spec by lia. f_equal. lia. }
    destruct (Z.testbit (x / 2) (Z.of_nat k)); cbn [List.length]; rewrite IHm; reflexivity. }
  rewrite IH by (apply Z.div_pos; lia).
  change (Z.testbit x (Z.of_nat 0)) with (Z.testbit x 0). rewrite Z.bit0_odd.
  destruct (Z.odd x); cbn [List.length]; rewrite E; lia.
Qed.

Lemma filter_ext_len {A} (f g : A -> bool) l : (forall x, In x l -> f x = g x) ->
  filter f l = filter g l.
Proof.
  induction l as [|x l IH]; cbn; intros H; [reflexivity|].
  rewrite (H x) by auto. rewrite IH by auto. reflexivity.
Qed.

Lemma filter_seq_shift f n : forall k,
  List.length (filter f (seq k n)) = List.length (filter (fun i => f (k + i)%nat) (seq 0 n)).
Proof.
  assert (G : forall k j, List.length (filter f (seq (k + j) n))
     = List.length (filter (fun i => f (k + i)%nat) (seq j n))).
  { induction n as [|n IH]; intros k j; [reflexivity|].
    cbn [seq filter].
    destruct (f (k + j)%nat); cbn [List.length];
      rewrite <- (Nat.add_succ_r k j), IH; reflexivity. }
  intros k. rewrite <- (Nat.add_0_r k) at 1. apply G.
Qed.

Lemma byte_nonneg x : is_byte x = true -> 0 <= x.
Proof. unfold is_byte. rewrite andb_true_iff, Z.leb_le. tauto. Qed.

Lemma hamming_zip_bits : forall a b,
  List.length a = List.length b -> is_bytes a = true -> is_bytes b = true ->
  hamming_zip a b =
  Z.of_nat (List.length (filter (fun i => xorb (bit_at a i) (bit_at b i)) (seq 0 (8 * List.length a)))).
Proof.
  induction a as [|x a IH]; intros [|y b] L Ha Hb; try discriminate; [reflexivity|].
  cbn [is_bytes forallb] in Ha, Hb. apply andb_prop in Ha, Hb.
  destruct Ha as [Hx Ha], Hb as [Hy Hb].
  cbn [hamming_zip].
  rewrite IH by (auto; cbn in L; lia).
  rewrite popcount_bits
    by (apply Z.lxor_nonneg; split; intros; apply byte_nonneg; assumption).
  replace (8 * List.length (x :: a))%nat with (8 + 8 * List.length a)%nat by (cbn [List.length]; lia).
  rewrite seq_app, filter_app, app_length, Nat2Z.inj_add.
  f_equal.
  - do 2 f_equal. apply filter_ext_len. intros i Hi. apply in_seq in Hi.
    unfold bit_at. rewrite Nat.div_small, Nat.mod_small by lia. cbn [nth].
    apply Z.lxor_spec.
  - f_equal. rewrite (filter_seq_shift _ _ (0 + 8)%nat). f_equal. apply filter_ext_len.
    intros i _. unfold bit_at.
    replace (0 + 8 + i)%nat with (i + 1 * 8)%nat by lia.
    rewrite Nat.div_add, Nat.mod_add by lia.
    rewrite Nat.add_1_r. reflexivity.
Qed.

Lemma ljust_length n b : List.length (ljust n b) = Nat.max n (List.length b).
Proof. unfold ljust. rewrite app_length, repeat_length. lia. Qed.

Lemma ljust_bytes n b : is_bytes b = true -> is_bytes (ljust n b) = true.
Proof.
  intros H. unfold ljust, is_bytes. rewrite forallb_app. apply andb_true_intro. split; [exact H|].
  apply forallb_forall. intros x Hx. apply repeat_spec in Hx. subst. reflexivity.
Qed.

Lemma ljust_bit n b i : bit_at (ljust n b) i = bit_at b i.
Proof.
  unfold bit_at, ljust. f_equal.
  destruct (Nat.lt_ge_cases (i / 8) (List.length b)) as [H|H].
  - apply app_nth1. exact H.
  - rewrite app_nth2 by exact H. rewrite (nth_overflow b) by exact H.
    apply nth_repeat.
Qed.

Lemma hamming_distance a b : is_bytes a = true -> is_bytes b = true ->
  hamming a b = bit_distance a b.
Proof.
  intros Ha Hb. unfold hamming, bit_distance.
  set (m := Nat.max (List.length a) (List.length b)).
  rewrite hamming_zip_bits.
  - rewrite ljust_length. replace (Nat.max m (List.length a)) with m by lia.
    do 2 f_equal. apply filter_ext_len. intros i _. rewrite !ljust_bit. reflexivity.
  - rewrite !ljust_length. lia.
  - apply ljust_bytes, Ha.
  - apply ljust_bytes, Hb.
Qed.

Lemma in_combinations2 {A} (d : A) l x y :
  In (x, y) (combinations2 l) <->
  exists i j, (i < j < List.length l)%nat /\ nth i l d = x /\ nth j l d = y.
Proof.
  induction l as [|z l IH]; cbn [combinations2].
  - split; [intros []|]. intros [i [j [H _]]]. cbn in H. lia.
  - rewrite in_app_iff, in_map_iff, IH. split.
    + intros [[w [E Hw]]|[i [j [H [E1 E2]]]]].
      * injection E as -> ->. destruct (In_nth _ _ d Hw) as [k [Hk Ek]].
        exists 0%nat, (S k). cbn. repeat split; auto; lia.
      * exists (S i), (S j). cbn. repeat split; auto; lia.
    + intros [[|i] [[|j] [H [E1 E2]]]]; cbn in H, E1, E2; try lia.
      * left. exists y. subst. split; [reflexivity|]. apply nth_In. lia.
      * right. exists i, j. repeat split; auto; lia.
Qed.

Theorem diverse_iff nonces minimal :
  (forall n, In n nonces -> is_bytes n = true) ->
  (nonces_must_be_diverse nonces minimal = Ok tt <->
   forall i j, (i < j < List.length nonces)%nat ->
     minimal <= bit_distance (nth i nonces []) (nth j nonces [])).
Proof.
  intros B. unfold nonces_must_be_diverse.
  assert (E : forall i j, (i < j < List.length nonces)%nat ->
     hamming (nth i nonces []) (nth j nonces []) = bit_distance (nth i nonces []) (nth j nonces [])).
  { intros i j H. apply hamming_distance; apply B; apply nth_In; lia. }
  destruct (forallb _ _) eqn:F.
  - split; [|reflexivity]. intros _ i j H. rewrite forallb_forall in F.
    rewrite <- (E i j H). apply Z.leb_le.
    apply (F (nth i nonces [], nth j nonces [])). apply (in_combinations2 []). eauto.
  - split; [discriminate|]. intros H. exfalso.
    rewrite <- Bool.not_true_iff_false in F. apply F. apply forallb_forall.
    intros [x y] Hin. apply (in_combinations2 []) in Hin.
    destruct Hin as [i [j [Hij [<- <-]]]]. cbn [fst snd]. apply Z.leb_le.
    specialize (H i j Hij). rewrite <- (E i j Hij) in H. exact H.
Qed.

Lemma diverse_err nonces minimal e :
  nonces_must_be_diverse nonces minimal = Err e -> e = EValueError.
Proof. unfold nonces_must_be_diverse. destruct (forallb _ _); congruence. Qed.

Lemma unique_iff nonces : nonces_must_be_unique nonces = Ok tt <-> NoDup nonces.
Proof.
  unfold nonces_must_be_unique.
  assert (C : forall x l, (1 <= count x l)%nat <-> In x l).
  { intros x l. unfold count. induction l as [|y l IH]; cbn [filter List.length In].
    - split; [lia|intros []].
    - destruct (bytes_eqb x y) eqn:E.
      + apply bytes_eqb_iff in E. subst. cbn [List.length]. split; [auto|lia].
      + assert (y <> x). { intros ->. rewrite (proj2 (bytes_eqb_iff x x) eq_refl) in E. discriminate. }
        rewrite IH. tauto. }
  assert (D : NoDup nonces <-> forall x, (count x nonces <= 1)%nat).
  { induction nonces as [|y l IH].
    - split; [intros _ x; cbn; lia|constructor].
    - split.
      + intros H x. inversion H; subst. unfold count. cbn [filter].
        destruct (bytes_eqb x y) eqn:E.
        * apply bytes_eqb_iff in E. subst. cbn [List.length].
          destruct (count y l) eqn:K; [unfold count in K; rewrite K; lia|].
          exfalso. apply H2. apply C. lia.
        * apply IH. assumption.
      + intros H. constructor.
        * intros Hin. apply C in Hin. specialize (H y). unfold count in *. cbn [filter] in H.
          rewrite (proj2 (bytes_eqb_iff y y) eq_refl) in H. cbn [List.length] in H. lia.
        * apply IH. intros x. specialize (H x). unfold count in *. cbn [filter] in H.
          destruct (bytes_eqb x y); cbn [List.length] in H; lia. }
  destruct (existsb _ nonces) eqn:F.
  - split; [discriminate|]. intros N. exfalso. apply existsb_exists in F.
    destruct F as [x [Hx Hc]]. apply Nat.ltb_lt in Hc. rewrite D in N. specialize (N x). lia.
  - split; [|reflexivity]. intros _. apply D. intros x.
    destruct (Nat.le_gt_cases (count x nonces) 1) as [H|H]; [exact H|]. exfalso.
    rewrite <- Bool.not_true_iff_false in F. apply F. apply existsb_exists. exists x. split.
    + apply C. lia.
    + apply Nat.ltb_lt. exact H.
Qed.

Lemma unique_err nonces e : nonces_must_be_unique nonces = Err e -> e = EValueError.
Proof. unfold nonces_must_be_unique. destruct (existsb _ _); congruence. Qed.

Lemma bit_distance_refl a : bit_distance a a = 0.
Proof.
  unfold bit_distance. rewrite (filter_ext_len _ (fun _ => false)).
  - induction (seq _ _) as [|x l IH]; [reflexivity|exact IH].
  - intros i _. apply xorb_nilpotent.
Qed.

Theorem diverse_unique nonces minimal :
  (forall n, In n nonces -> is_bytes n = true) -> 1 <= minimal ->
  nonces_must_be_diverse nonces minimal = Ok tt -> nonces_must_be_unique nonces = Ok tt.
Proof.
  intros B M H. apply unique_iff. pose proof (proj1 (diverse_iff nonces minimal B) H) as H'. clear H. rename H' into H.
  apply (NoDup_nth nonces []). intros i j Hi Hj E.
  destruct (Nat.lt_trichotomy i j) as [L|[L|L]]; [|exact L|]; exfalso.
  - specialize (H i j ltac:(lia)). rewrite E, bit_distance_refl in H. lia.
  - specialize (H j i ltac:(lia)). rewrite E, bit_distance_refl in H. lia.
Qed.

(** ** Fields *)

Lemma octets_ok o b : octets o = Ok b <-> o = Some b.
Proof. destruct o; cbn; split; congruence. Qed.

Ltac inv_ok :=
  repeat match goal with
  | H : bind _ _ = Ok _ |- _ => apply bind_ok in H; destruct H as [? [? H]]
  | H : guard _ _ = Ok _ |- _ => apply guard_ok in H
  | H : octets _ = Ok _ |- _ => apply octets_ok in H
  | H : Nat.eqb _ _ = true |- _ => apply Nat.eqb_eq in H
  | H : bytes_eqb _ _ = true |- _ => apply bytes_eqb_iff in H
  | H : bname_beq _ _ = true |- _ => apply bname_eqb_iff in H
  | H : (_ <=? _) = true |- _ => apply Z.leb_le in H
  | H : (_ <? _) = true |- _ => apply Z.ltb_lt in H
  | H : negb _ = true |- _ => apply negb_true_iff in H
  | x : unit |- _ => destruct x
  end.

Lemma beqb_refl b : bytes_eqb b b = true.
Proof. apply bytes_eqb_iff. reflexivity. Qed.

Theorem transaction_id_iff response request :
  validate_transaction_id response request = Ok tt <->
  has_len (f_tx response) 16 /\
  match request with Some q => f_tx q = f_tx response | None => True end.
Proof.
  unfold validate_transaction_id, has_len, f_tx. split.
  - intros H. inv_ok. destruct request as [q|]; inv_ok; [|split; [eauto|exact I]].
    split; [eauto|]. congruence.
  - intros [[b [E L]] R]. rewrite E. cbn [is_value guard bind octets]. rewrite L. cbn [Nat.eqb guard bind].
    destruct request as [q|]; [|reflexivity]. rewrite R, E. cbn [octets bind].
    rewrite beqb_refl. reflexivity.
Qed.

Theorem nonce_iff response request sec :
  validate_sender_and_recipient_nonce response request sec = Ok tt <->
  same_set (f_sn request) (f_rn response) /\
  has_bits (f_rn response) (Z.max 128 sec) /\ has_bits (f_sn response) (Z.max 128 sec).
Proof.
  unfold validate_sender_and_recipient_nonce, same_set, has_bits, f_sn, f_rn. split.
  - intros H. inv_ok. repeat split; try congruence; eexists; split; eauto.
    congruence.
  - intros [[S N] [[r [Er Lr]] [s [Es Ls]]]].
    rewrite S, Er, Es. cbn [is_value guard bind octets].
    apply Z.leb_le in Lr, Ls. rewrite Lr. cbn [guard bind]. rewrite beqb_refl. cbn [guard bind].
    rewrite Ls. reflexivity.
Qed.

Lemma gname_eqb_dir a b : gname_eqb a b = true ->
  match a, b with
  | GDir x, GDir y => n_der x = n_der y
  | _, _ => a = b
  end.
Proof.
  destruct a, b; cbn; intros H; try discriminate.
  - apply bytes_eqb_iff, H.
  - apply String.eqb_eq in H. congruence.
  - apply String.eqb_eq in H. congruence.
  - apply andb_prop in H. destruct H as [H1 H2]. apply Z.eqb_eq in H1. apply bytes_eqb_iff in H2. congruence.
Qed.

Lemma gname_eqb_iff a b : gname_eqb a b = true <->
  match a, b with
  | GDir x, GDir y => n_der x = n_der y
  | _, _ => a = b
  end.
Proof.
  split; [apply gname_eqb_dir|].
  destruct a, b; cbn; intros H; try discriminate.
  - apply bytes_eqb_iff, H.
  - injection H as ->. apply String.eqb_refl.
  - injection H as ->. apply String.eqb_refl.
  - injection H as -> ->. rewrite Z.eqb_refl, beqb_refl. reflexivity.
Qed.

Theorem sender_recipient_iff response request must :
  validate_sender_and_recipient response request must = Ok tt <->
  has_len (f_tx response) 16 /\ f_tx request = f_tx response /\
  same_set (f_sn request) (f_rn response) /\
  has_bits (f_rn response) 128 /\ has_bits (f_sn response) 128 /\
  (must = true -> gname_eqb (h_recipient (hdr response)) (h_sender (hdr request)) = true).
Proof.
  unfold validate_sender_and_recipient. split.
  - intros H. inv_ok.
    match goal with T : validate_transaction_id _ _ = _ |- _ => apply transaction_id_iff in T; destruct T end.
    match goal with T : validate_sender_and_recipient_nonce _ _ _ = _ |- _ => apply nonce_iff in T; destruct T as [? [? ?]] end.
    repeat split; try assumption; try (apply H2); auto.
    + match goal with T : same_set _ _ |- _ => apply T end.
    + match goal with T : same_set _ _ |- _ => apply T end.
    + intros ->. destruct (gname_eqb _ _); [reflexivity|discriminate].
  - intros [H1 [H2 [H3 [H4 [H5 H6]]]]].
    rewrite (proj2 (transaction_id_iff response (Some request))) by (split; assumption). cbn [bind].
    rewrite (proj2 (nonce_iff response request 128)) by (split; [|split]; assumption). cbn [bind].
    destruct (gname_eqb _ _); [reflexivity|]. destruct must; [|reflexivity].
    discriminate (H6 eq_refl).
Qed.

(** ** Requests *)

Theorem cert_conf_iff request response len :
  validate_cert_conf_nonces_and_tx_id request response len = Ok tt <->
  body request = BcertConf /\
  same_set (f_tx request) (f_tx response) /\
  same_set (f_sn request) (f_rn response) /\
  same_set (f_rn request) (f_sn response) /\
  (len = true -> has_len (f_tx request) 16 /\ has_len (f_sn request) 16 /\ has_len (f_rn request) 16).
Proof.
  unfold validate_cert_conf_nonces_and_tx_id, same_set, has_len, f_tx, f_sn, f_rn. split.
  - intros H. inv_ok. repeat split; try congruence.
    + subst len. inv_ok. eauto.
    + subst len. inv_ok. eauto.
    + subst len. inv_ok. eauto.
  - intros [B [[T Tn] [[S Sn] [[R Rn] L]]]].
    rewrite B. rewrite <- T, <- S, <- R. cbn [bname_beq guard bind].
    destruct (h_tx (hdr request)) as [t|]; [|congruence].
    destruct (h_snonce (hdr request)) as [s|]; [|congruence].
    destruct (h_rnonce (hdr request)) as [r|]; [|congruence].
    cbn [is_value guard bind octets].
    assert (G : (if len then
        let! _ := guard (Nat.eqb (List.length t) 16) EBadRequest in
        let! _ := guard (Nat.eqb (List.length s) 16) EBadSenderNonce in
        guard (Nat.eqb (List.length r) 16) EBadRecipientNonce
      else Ok tt) = Ok tt).
    { destruct len; [|reflexivity].
      destruct (L eq_refl) as [[t' [E1 L1]] [[s' [E2 L2]] [r' [E3 L3]]]].
      injection E1 as <-. injection E2 as <-. injection E3 as <-.
      rewrite L1, L2, L3. reflexivity. }
    rewrite G. cbn [bind]. rewrite !beqb_refl. reflexivity.
Qed.

Theorem request_iff request response :
  validate_request_message_nonces_and_tx_id request response = Ok tt <->
  body request <> Bnested /\
  has_len (f_tx request) 16 /\ has_len (f_sn request) 16 /\
  ((body request = BcertConf /\ has_len (f_rn request) 16 /\
    exists r, response = Some r /\ f_tx r = f_tx request /\ f_rn r = f_sn request /\ f_sn r = f_rn request)
   \/ (body request <> BcertConf /\ f_rn request = None)).
Proof.
  unfold validate_request_message_nonces_and_tx_id. split.
  - intros H. destruct (bname_beq (body request) Bnested) eqn:N; [discriminate|].
    assert (NN : body request <> Bnested).
    { intros E. rewrite E in N. discriminate. }
    destruct (bname_beq (body request) BcertConf) eqn:C.
    + apply bname_eqb_iff in C. destruct response as [r|]; [|discriminate].
      apply cert_conf_iff in H. destruct H as [_ [T [S [R L]]]].
      destruct (L eq_refl) as [L1 [L2 L3]].
      split; [exact NN|]. split; [exact L1|]. split; [exact L2|]. left.
      split; [exact C|]. split; [exact L3|]. exists r. unfold same_set in *.
      repeat split; try (symmetry; tauto).
    + assert (CC : body request <> BcertConf).
      { intros E. rewrite E in C. discriminate. }
      unfold has_len, f_tx, f_sn, f_rn. inv_ok.
      split; [exact NN|]. split; [eauto|]. split; [eauto|]. right. split; [exact CC|].
      destruct (h_rnonce (hdr request)); [discriminate|reflexivity].
  - intros [NN [L1 [L2 [[C [L3 [r [-> [E1 [E2 E3]]]]]]|[C R]]]]].
    + rewrite C. cbn [bname_beq].
      apply cert_conf_iff.
      destruct L1 as [t [T Lt]], L2 as [s [S Ls]], L3 as [q [R Lq]].
      unfold same_set, has_len. repeat split; try congruence; eauto.
    + assert (bname_beq (body request) Bnested = false) as ->.
      { destruct (bname_beq _ _) eqn:E; [apply bname_eqb_iff in E; congruence|reflexivity]. }
      assert (bname_beq (body request) BcertConf = false) as ->.
      { destruct (bname_beq _ _) eqn:E; [apply bname_eqb_iff in E; congruence|reflexivity]. }
      destruct L1 as [t [T Lt]], L2 as [s [S Ls]]. unfold f_tx, f_sn, f_rn in *.
      rewrite T, S, R. cbn [is_value guard bind octets negb]. rewrite Lt, Ls. reflexivity.
Qed.

(** ** Nested messages *)

Lemma mem_iff x l : mem x l = true <-> In x l.
Proof.
  unfold mem. rewrite existsb_exists. split.
  - intros [y [H E]]. apply bytes_eqb_iff in E. subst. exact H.
  - intros H. exists x. split; [exact H|apply beqb_refl].
Qed.

Lemma dedup_length l : (List.length (dedup l) <= List.length l)%nat.
Proof.
  induction l as [|x l IH]; cbn; [lia|]. destruct (mem x l); cbn; lia.
Qed.

Lemma is_unique_iff l : is_unique l = true <-> NoDup l.
Proof.
  unfold is_unique. rewrite Nat.eqb_eq. induction l as [|x l IH]; cbn [dedup].
  - split; [constructor|reflexivity].
  - destruct (mem x l) eqn:M.
    + split; intros H.
      * pose proof (dedup_length l). cbn [List.length] in H. lia.
      * inversion H; subst. apply mem_iff in M. contradiction.
    + cbn [List.length]. split; intros H.
      * constructor; [|apply IH; lia]. intros Hin. apply mem_iff in Hin. congruence.
      * inversion H; subst. rewrite (proj2 IH); auto.
Qed.

Lemma collect_nested_spec l cr txs sns rns :
  collect_nested l cr = Ok (txs, sns, rns) <->
  all_set f_tx l txs /\ all_set f_sn l sns /\ (if cr then all_set f_rn l rns else rns = []).
Proof.
  revert txs sns rns. induction l as [|m l IH]; intros txs sns rns; cbn [collect_nested].
  - split.
    + intros H. injection H as <- <- <-. repeat split; try constructor. destruct cr; constructor.
    + intros [A [B C]]. inversion A; inversion B; subst. destruct cr; [inversion C|]; subst; reflexivity.
  - split.
    + intros H. inv_ok.
      match goal with K : (let (_, _) := ?x in _) = Ok _ |- _ => destruct x as [[txs' sns'] rns'] end.
      injection H as <- <- <-.
      match goal with K : collect_nested l cr = Ok _ |- _ => apply IH in K; destruct K as [A [B C]] end.
      repeat split; try (constructor; assumption).
      destruct cr; inv_ok.
      * match goal with K : Ok _ = Ok _ |- _ => injection K as <- end. cbn [app]. constructor; assumption.
      * match goal with K : Ok _ = Ok _ |- _ => injection K as <- end. exact C.
    + intros [A [B C]].
      inversion A as [|? ? t txs' Et At]; subst. inversion B as [|? ? s sns' Es Bs]; subst.
      unfold f_tx in Et. unfold f_sn in Es. rewrite Et, Es. cbn [is_value guard bind octets].
      destruct cr.
      * inversion C as [|? ? r rns' Er Cr]; subst. unfold f_rn in Er. rewrite Er.
        cbn [is_value guard bind octets negb andb].
        rewrite (proj2 (IH txs' sns' rns')) by auto. reflexivity.
      * subst rns. rewrite andb_false_r. cbn [negb guard bind].
        rewrite (proj2 (IH txs' sns' [])) by auto. reflexivity.
Qed.

Lemma all_len16_iff l : all_len16 l = true <-> Forall (fun b => List.length b = 16%nat) l.
Proof.
  unfold all_len16. rewrite forallb_forall, Forall_forall. split; intros H x Hx.
  - apply Nat.eqb_eq, H, Hx.
  - apply Nat.eqb_eq, H, Hx.
Qed.

Theorem nested_unique_iff m ct cs cr cl :
  validate_nested_unique m ct cs cr cl = Ok tt <->
  body m = Bnested /\
  exists ids snonces rnonces,
    all_set f_tx (m :: inner m) ids /\ all_set f_sn (m :: inner m) snonces /\
    (if cr then all_set f_rn (m :: inner m) rnonces
     else rnonces = match f_rn m with Some r => [r] | None => [] end) /\
    (ct = true -> NoDup ids) /\ (cs = true -> NoDup snonces) /\ (cr = true -> NoDup rnonces) /\
    (cl = true -> Forall (fun b => List.length b = 16%nat) (ids ++ snonces ++ rnonces)).
Proof.
  assert (NU : forall c l, negb (c && negb (is_unique l)) = true <-> (c = true -> NoDup l)).
  { intros c l. rewrite <- is_unique_iff. destruct c, (is_unique l); cbn; split; intros H; auto; try congruence. }
  assert (LN : forall a b c, (if cl then
      let! _ := guard (all_len16 a) EBadRequest in
      let! _ := guard (all_len16 b) EBadSenderNonce in
      guard (all_len16 c) EBadRecipientNonce else Ok tt) = Ok tt <->
     (cl = true -> Forall (fun x => List.length x = 16%nat) (a ++ b ++ c))).
  { intros a b c. rewrite !Forall_app, <- !all_len16_iff. destruct cl.
    - split.
      + intros H _. inv_ok. tauto.
      + intros H. destruct (H eq_refl) as [-> [-> ->]]. reflexivity.
    - split; [intros _ H; discriminate|reflexivity]. }
  unfold validate_nested_unique. split.
  - intros H. inv_ok.
    match goal with K : (let (_, _) := ?x in _) = Ok _ |- _ => destruct x as [[txs sns] rns] end.
    match goal with K : collect_nested _ _ = Ok _ |- _ => apply collect_nested_spec in K; destruct K as [A [B C]] end.
    inv_ok. split; [assumption|].
    match goal with K : h_tx (hdr m) = Some ?t |- _ => exists (t :: txs) end.
    match goal with K : h_snonce (hdr m) = Some ?t |- _ => exists (t :: sns) end.
    pose proof (proj1 (LN _ _ _) H) as HL.
    match goal with K : match h_rnonce (hdr m) with _ => _ end = Ok ?r |- _ => exists (r ++ rns); rename K into KR end.
    split; [constructor; assumption|]. split; [constructor; assumption|].
    split.
    { unfold f_rn in *. destruct cr.
      - destruct (h_rnonce (hdr m)) eqn:E; [|discriminate]. injection KR as <-. cbn [app].
        constructor; [exact E|exact C].
      - subst rns. rewrite app_nil_r. destruct (h_rnonce (hdr m)); congruence. }
    repeat split; try (apply NU; apply negb_true_iff; assumption). exact HL.
  - intros [B [ids [sns [rns [A1 [A2 [A3 [U1 [U2 [U3 L]]]]]]]]]].
    inversion A1 as [|? ? t txs Et At]; subst. inversion A2 as [|? ? s sns' Es As]; subst.
    unfold f_tx in Et. unfold f_sn in Es.
    rewrite B, Et, Es. cbn [bname_beq is_value guard bind octets].
    pose proof (proj2 (NU _ _) U1) as U1'. pose proof (proj2 (NU _ _) U2) as U2'.
    pose proof (proj2 (NU _ _) U3) as U3'. pose proof (proj2 (LN _ _ _) L) as L'.
    clear U1 U2 U3 L. rename U1' into U1, U2' into U2, U3' into U3, L' into L.
    destruct cr.
    + inversion A3 as [|? ? r rns' Er Ar]; subst. unfold f_rn in Er. rewrite Er. cbn [bind].
      rewrite (proj2 (collect_nested_spec (inner m) true txs sns' rns')) by auto. cbn [bind app].
      rewrite U1, U2, U3. cbn [guard bind]. exact L.
    + unfold f_rn in A3.
      rewrite (proj2 (collect_nested_spec (inner m) false txs sns' [])) by auto.
      destruct (h_rnonce (hdr m)) as [r|]; cbn [bind app]; subst rns; rewrite U1, U2, U3; cbn [guard bind]; exact L.
Qed.

Theorem add_protection_iff m cl :
  validate_add_protection m cl = Ok tt <->
  exists im, inner m = [im] /\
    same_set (f_tx m) (f_tx im) /\ same_set (f_sn m) (f_sn im) /\
    f_rn m = f_rn im /\ (set (f_rn m) <-> body im = BcertConf) /\
    (cl = true -> has_len (f_tx m) 16 /\ has_len (f_sn m) 16 /\ (set (f_rn m) -> has_len (f_rn m) 16)).
Proof.
  unfold validate_add_protection, same_set, has_len, set, f_tx, f_sn, f_rn. split.
  - intros H. destruct (inner m) as [|im [|? ?]]; try discriminate. exists im. split; [reflexivity|].
    destruct (bname_beq (body im) BcertConf) eqn:C; inv_ok.
    + subst. match goal with K : Ok _ = Ok _ |- _ => injection K as <- end.
      repeat split; try congruence; destruct cl; try discriminate; inv_ok; eauto.
    + subst. match goal with K : Ok _ = Ok _ |- _ => injection K as <- end.
      assert (NC : body im <> BcertConf). { intros E. rewrite E in C. discriminate. }
      destruct (h_rnonce (hdr im)); [discriminate|]. destruct (h_rnonce (hdr m)); [discriminate|].
      repeat split; try congruence; try tauto; destruct cl; try discriminate; inv_ok; eauto.
  - intros [im [-> [[T Tn] [[S Sn] [R [RC L]]]]]].
    rewrite <- T, <- S, <- R.
    destruct (h_tx (hdr m)) as [t|]; [|congruence].
    destruct (h_snonce (hdr m)) as [s|]; [|congruence].
    cbn [is_value guard bind octets]. rewrite !beqb_refl. cbn [guard bind].
    destruct (bname_beq (body im) BcertConf) eqn:C.
    + apply bname_eqb_iff in C. apply RC in C.
      destruct (h_rnonce (hdr m)) as [r|]; [|congruence].
      cbn [is_value guard bind octets]. rewrite beqb_refl. cbn [guard bind].
      destruct cl; [|reflexivity]. destruct (L eq_refl) as [[t' [E1 L1]] [[s' [E2 L2]] L3]].
      destruct L3 as [r' [E3 L3]]; [discriminate|].
      injection E1 as <-. injection E2 as <-. injection E3 as <-. rewrite L1, L2, L3. reflexivity.
    + assert (NC : body im <> BcertConf). { intros E. rewrite E in C. discriminate. }
      destruct (h_rnonce (hdr m)) as [r|]; [exfalso; apply NC, RC; discriminate|].
      cbn [is_value guard bind negb].
      destruct cl; [|reflexivity]. destruct (L eq_refl) as [[t' [E1 L1]] [[s' [E2 L2]] L3]].
      injection E1 as <-. injection E2 as <-. rewrite L1, L2. reflexivity.
Qed.

(** ** Nested responses *)

Lemma pair_eqb_iff a b : pair_eqb a b = true <-> a = b.
Proof.
  destruct a as [a1 a2], b as [b1 b2]. unfold pair_eqb. cbn [fst snd].
  rewrite andb_true_iff, !bytes_eqb_iff. split; [intros [-> ->]; reflexivity|intros H; injection H; auto].
Qed.

Section DictFacts.
  Context {K V : Type} (keq : K -> K -> bool) (keq_iff : forall a b, keq a b = true <-> a = b).

  Lemma keq_refl a : keq a a = true.
  Proof. apply keq_iff. reflexivity. Qed.

  Lemma keq_neq a b : a <> b -> keq a b = false.
  Proof. intros H. destruct (keq a b) eqn:E; [apply keq_iff in E; contradiction|reflexivity]. Qed.

  Lemma dict_get_set k v k' (d : list (K * V)) :
    dict_get keq k' (dict_set keq k v d) = if keq k' k then Some v else dict_get keq k' d.
  Proof.
    induction d as [|[k0 v0] d IH]; cbn [dict_set dict_get].
    - reflexivity.
    - destruct (keq k k0) eqn:E; cbn [dict_get].
      + apply keq_iff in E. subst k0. destruct (keq k' k); reflexivity.
      + destruct (keq k' k0) eqn:E'.
        * apply keq_iff in E'. subst k0. destruct (keq k' k) eqn:E''; [|reflexivity].
          apply keq_iff in E''. subst. rewrite keq_refl in E. discriminate.
        * exact IH.
  Qed.

  Lemma dict_set_keys k v (d : list (K * V)) x :
    In x (map fst (dict_set keq k v d)) <-> x = k \/ In x (map fst d).
  Proof.
    induction d as [|[k0 v0] d IH]; cbn [dict_set map fst In].
    - intuition.
    - destruct (keq k k0) eqn:E; cbn [map fst In].
      + apply keq_iff in E. subst. intuition.
      + rewrite IH. intuition.
  Qed.

  Lemma dict_set_nodup k v (d : list (K * V)) : NoDup (map fst d) -> NoDup (map fst (dict_set keq k v d)).
  Proof.
    induction d as [|[k0 v0] d IH]; cbn [dict_set map fst]; intros H.
    - constructor; [intros []|constructor].
    - inversion H; subst. destruct (keq k k0) eqn:E; cbn [map fst].
      + exact H.
      + constructor; [|auto]. rewrite dict_set_keys. intros [F|F]; [|contradiction].
        subst. rewrite keq_refl in E. discriminate.
  Qed.

  Lemma dict_get_in k v (d : list (K * V)) : NoDup (map fst d) ->
    (In (k, v) d <-> dict_get keq k d = Some v).
  Proof.
    induction d as [|[k0 v0] d IH]; cbn [dict_get map fst In]; intros N.
    - split; [intros []|discriminate].
    - inversion N; subst. destruct (keq k k0) eqn:E.
      + apply keq_iff in E. subst. split.
        * intros [F|F]; [congruence|]. exfalso. apply H1. apply (in_map fst) in F. exact F.
        * intros F. left. congruence.
      + rewrite <- IH by assumption. split; [|auto]. intros [F|F]; [|exact F].
        injection F as -> ->. rewrite keq_refl in E. discriminate.
  Qed.
End DictFacts.

(** The last message of a list with the given key. *)
Definition resp_key (m : msg) (k : bytes * bytes) : Prop :=
  f_rn m = Some (fst k) /\ f_tx m = Some (snd k).

Lemma resp_pairs_get l : forall d d', resp_pairs l d = Ok d' ->
  (forall m, In m l -> exists k, resp_key m k) /\
  forall k, dict_get pair_eqb k d' =
    match find (fun m => match f_rn m, f_tx m with
                         | Some a, Some b => pair_eqb k (a, b) | _, _ => false end) (rev l) with
    | Some m => Some (body m)
    | None => dict_get pair_eqb k d
    end.
Proof.
  induction l as [|m l IH]; intros d d' H; cbn [resp_pairs] in H.
  - injection H as <-. split; [intros ? []|reflexivity].
  - inv_ok. apply IH in H. destruct H as [A B]. split.
    + intros m' [<-|Hm]; [|auto]. eexists (_, _). split; cbn [fst snd]; eassumption.
    + intros k. rewrite B. cbn [rev].
      assert (F : forall (P : msg -> bool) a b, find P (a ++ b) =
        match find P a with Some y => Some y | None => find P b end).
      { intros P a b. induction a as [|z a IHa]; cbn; [reflexivity|]. destruct (P z); auto. }
      rewrite F. destruct (find _ (rev l)); [reflexivity|].
      cbn [find]. unfold f_rn at 1, f_tx at 1. rewrite H0, H1.
      rewrite (dict_get_set _ pair_eqb_iff).
      destruct (pair_eqb k (x, x0)); reflexivity.
Qed.

Lemma req_pairs_get l : forall d d', req_pairs l d = Ok d' ->
  NoDup (map fst d) ->
  NoDup (map fst d') /\
  (forall m, In m l -> set (f_sn m) /\ set (f_tx m)) /\
  (forall b, ~ In b (map body l) -> dict_get bname_beq b d' = dict_get bname_beq b d) /\
  (NoDup (map body l) -> forall m, In m l -> exists s t,
      f_sn m = Some s /\ f_tx m = Some t /\ dict_get bname_beq (body m) d' = Some (s, t)).
Proof.
  induction l as [|m l IH]; intros d d' H N; cbn [req_pairs] in H.
  - injection H as <-. split; [exact N|]. split; [intros ? []|]. split; [reflexivity|intros _ ? []].
  - inv_ok. apply IH in H; [|apply (dict_set_nodup _ bname_eqb_iff); exact N].
    destruct H as [A [B [C D]]]. split; [exact A|]. split; [|split].
    + intros m' [<-|Hm]; [|auto]. unfold set, f_sn, f_tx. split; congruence.
    + intros b Hb. cbn [map In] in Hb. rewrite C by tauto.
      rewrite (dict_get_set _ bname_eqb_iff). rewrite (keq_neq _ bname_eqb_iff); [reflexivity|]. intros ->. tauto.
    + intros ND m' [<-|Hm].
      * cbn [map] in ND. inversion ND; subst. exists x, x0. unfold f_sn, f_tx.
        split; [assumption|]. split; [assumption|]. rewrite C by assumption.
        rewrite (dict_get_set _ bname_eqb_iff). rewrite (keq_refl _ bname_eqb_iff). reflexivity.
      * cbn [map] in ND. inversion ND; subst. auto.
Qed.

Lemma allowed_answer b e : allowed_answer_bodies b = Some e <->
  (b = Bir \/ b = Bcr \/ b = Bkur \/ b = Bp10cr \/ b = Bgenm) /\ answer_body b e.
Proof.
  split.
  - intros H. destruct b; cbn in H; try discriminate; injection H as <-; split; auto 10; constructor.
  - intros [P H]. destruct H; cbn; try reflexivity.
    + exfalso. intuition discriminate.
    + exfalso. intuition discriminate.
Qed.

Lemma check_pairs_in d resp : check_pairs d resp = Ok tt <->
  forall b k, In (b, k) d -> exists rb, dict_get pair_eqb k resp = Some rb /\ reply_type b rb.
Proof.
  induction d as [|[b k] d IH]; cbn [check_pairs].
  - split; [intros _ ? ? []|reflexivity].
  - destruct (dict_get pair_eqb k resp) as [rb|] eqn:G.
    2: { split; [discriminate|]. intros H. destruct (H b k (or_introl eq_refl)) as [rb [E _]]. congruence. }
    destruct (bname_beq rb Berror || bname_beq rb BpollReq) eqn:E.
    + apply orb_prop in E. rewrite !bname_eqb_iff in E. rewrite IH. split.
      * intros H b' k' [F|F]; [|auto]. injection F as <- <-. exists rb. split; [exact G|].
        unfold reply_type. tauto.
      * intros H b' k' F. apply H. right. exact F.
    + apply orb_false_elim in E. destruct E as [E1 E2].
      assert (N1 : rb <> Berror) by (intros ->; discriminate).
      assert (N2 : rb <> BpollReq) by (intros ->; discriminate).
      destruct (allowed_answer_bodies b) as [e|] eqn:AA.
      * destruct (bname_beq e rb) eqn:ER.
        -- apply bname_eqb_iff in ER. subst e. rewrite IH. split.
           ++ intros H b' k' [F|F]; [|auto]. injection F as <- <-. exists rb. split; [exact G|].
              apply allowed_answer in AA. unfold reply_type. tauto.
           ++ intros H b' k' F. apply H. right. exact F.
        -- split; [discriminate|]. intros H.
           destruct (H b k (or_introl eq_refl)) as [rb' [E' [R|[R|R]]]]; try congruence.
           apply allowed_answer in R. assert (e = rb) by congruence. subst.
           rewrite (keq_refl _ bname_eqb_iff) in ER. discriminate.
      * split; [discriminate|]. intros H.
        destruct (H b k (or_introl eq_refl)) as [rb' [E' [R|[R|R]]]]; try congruence.
        apply allowed_answer in R. congruence.
Qed.

Lemma find_rev_in (P : msg -> bool) l m : find P (rev l) = Some m -> In m l /\ P m = true.
Proof.
  intros H. apply find_some in H. destruct H as [H1 H2]. split; [|exact H2].
  apply in_rev. exact H1.
Qed.

Theorem nested_response_sound request response :
  validate_nested_response request response = Ok tt ->
  body response = Bnested /\ List.length (inner response) = List.length (inner request) /\
  has_len (f_tx response) 16 /\ f_tx request = f_tx response /\
  same_set (f_sn request) (f_rn response) /\
  (NoDup (map body (inner request)) ->
   forall q, In q (inner request) ->
     exists r, In r (inner response) /\ replies_to q r /\ reply_type (body q) (body r)).
Proof.
  unfold validate_nested_response. intros H. inv_ok.
  match goal with T : validate_sender_and_recipient _ _ _ = _ |- _ => apply sender_recipient_iff in T;
    destruct T as [S1 [S2 [S3 _]]] end.
  split; [assumption|]. split; [assumption|]. split; [exact S1|]. split; [exact S2|]. split; [exact S3|].
  intros ND q Hq.
  match goal with T : resp_pairs _ _ = Ok _ |- _ => apply resp_pairs_get in T; destruct T as [_ RG] end.
  match goal with T : req_pairs _ _ = Ok _ |- _ => apply req_pairs_get in T; [|constructor];
     destruct T as [N [_ [_ QG]]] end.
  destruct (QG ND q Hq) as [s [t [Es [Et G]]]].
  apply (dict_get_in _ bname_eqb_iff) in G; [|exact N].
  rewrite check_pairs_in in H. destruct (H _ _ G) as [rb [E R]].
  rewrite RG in E. destruct (find _ _) as [r|] eqn:F; [|discriminate].
  injection E as <-. apply find_rev_in in F. destruct F as [Hr P].
  exists r. split; [exact Hr|]. split; [|exact R].
  destruct (f_rn r) as [a|] eqn:Ea; [|discriminate]. destruct (f_tx r) as [b|] eqn:Eb; [|discriminate].
  apply pair_eqb_iff in P. injection P as <- <-.
  unfold replies_to, same_set. rewrite Es, Et, Ea, Eb. repeat split; congruence.
Qed.

Lemma resp_pairs_total l : (forall m, In m l -> set (f_rn m) /\ set (f_tx m)) ->
  forall d, exists d', resp_pairs l d = Ok d'.
Proof.
  induction l as [|m l IH]; intros H d; cbn [resp_pairs]; [eauto|].
  destruct (H m (or_introl eq_refl)) as [A B]. unfold set, f_rn, f_tx in A, B.
  destruct (h_rnonce (hdr m)); [|congruence]. destruct (h_tx (hdr m)); [|congruence].
  cbn [octets bind]. apply IH. intros m' Hm. apply H. right. exact Hm.
Qed.

Lemma req_pairs_total l : (forall m, In m l -> set (f_sn m) /\ set (f_tx m)) ->
  forall d, exists d', req_pairs l d = Ok d'.
Proof.
  induction l as [|m l IH]; intros H d; cbn [req_pairs]; [eauto|].
  destruct (H m (or_introl eq_refl)) as [A B]. unfold set, f_sn, f_tx in A, B.
  destruct (h_snonce (hdr m)); [|congruence]. destruct (h_tx (hdr m)); [|congruence].
  cbn [octets bind]. apply IH. intros m' Hm. apply H. right. exact Hm.
Qed.

Lemma req_pairs_sub l : forall d d', req_pairs l d = Ok d' -> NoDup (map fst d) ->
  forall b k, In (b, k) d' -> In (b, k) d \/
    exists m, In m l /\ body m = b /\ f_sn m = Some (fst k) /\ f_tx m = Some (snd k).
Proof.
  induction l as [|m l IH]; intros d d' H N b k Hin; cbn [req_pairs] in H.
  - injection H as <-. auto.
  - inv_ok. pose proof (dict_set_nodup _ bname_eqb_iff (body m) (x, x0) d N) as N'.
    destruct (IH _ _ H N' b k Hin) as [F|[m' [A B]]].
    + apply (dict_get_in _ bname_eqb_iff) in F; [|exact N'].
      rewrite (dict_get_set _ bname_eqb_iff) in F. destruct (bname_beq b (body m)) eqn:E.
      * apply bname_eqb_iff in E. injection F as <-. right. exists m. cbn [In fst snd].
        unfold f_sn, f_tx. auto.
      * left. apply (dict_get_in _ bname_eqb_iff); assumption.
    + right. exists m'. cbn [In]. tauto.
Qed.

(** The check accepts every honest batch answer: outer fields right, same
    number of entries, each entry complete, and a reply of an allowed type for
    every request, where entries with the same nonce and transactionID have
    the same type. *)
Theorem nested_response_complete request response :
  validate_sender_and_recipient response request false = Ok tt ->
  body response = Bnested -> List.length (inner response) = List.length (inner request) ->
  (forall r, In r (inner response) -> set (f_rn r) /\ set (f_tx r)) ->
  (forall q, In q (inner request) -> set (f_sn q) /\ set (f_tx q)) ->
  (forall q, In q (inner request) -> exists r, In r (inner response) /\ replies_to q r) ->
  (forall q r, In q (inner request) -> In r (inner response) -> replies_to q r ->
     reply_type (body q) (body r)) ->
  validate_nested_response request response = Ok tt.
Proof.
  intros S B L R Q X T. unfold validate_nested_response. rewrite S, B, L.
  rewrite Nat.eqb_refl. cbn [bname_beq guard bind].
  destruct (resp_pairs_total _ R []) as [rp Hr]. destruct (req_pairs_total _ Q []) as [qp Hq].
  rewrite Hr, Hq. cbn [bind]. apply check_pairs_in. intros b k Hin.
  destruct (req_pairs_sub _ _ _ Hq (NoDup_nil _) _ _ Hin) as [[]|[q [Iq [<- [Es Et]]]]].
  apply resp_pairs_get in Hr. destruct Hr as [_ G]. rewrite G.
  destruct (X q Iq) as [r [Ir [[E1 N1] [E2 N2]]]].
  destruct (find _ _) as [r'|] eqn:F.
  - exists (body r'). split; [reflexivity|]. apply find_rev_in in F. destruct F as [Ir' P].
    apply T; [exact Iq|exact Ir'|].
    destruct (f_rn r') as [a|] eqn:Ea; [|discriminate]. destruct (f_tx r') as [c|] eqn:Ec; [|discriminate].
    apply pair_eqb_iff in P. subst k. cbn [fst snd] in *. unfold replies_to, same_set.
    rewrite Es, Et, Ea, Ec. repeat split; congruence.
  - exfalso. apply find_none with (x := r) in F; [|apply -> in_rev; exact Ir].
    rewrite <- E1, <- E2, Es, Et in F.
    rewrite (proj2 (pair_eqb_iff _ _)) in F; [discriminate|]. destruct k; reflexivity.
Qed.
