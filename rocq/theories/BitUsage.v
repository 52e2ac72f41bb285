(** Proofs: key usage, extended key usage, status and requests. *)
From Coq Require Import String Ascii NArith.
From Verif Require Import Prelude PreludeFacts PyStr PyStrProofs BitModel BitSpec BitProofs BitMore.
From Verif Require CompLoadModel.
Local Notation length := List.length.
Local Open Scope string_scope.

Fixpoint nodup_str (l : list string) : bool :=
  match l with [] => true | a :: r => negb (str_mem a r) && nodup_str r end.
Lemma nodup_str_ok l : nodup_str l = true -> NoDup l.
Proof.
  induction l as [|a l IH]; simpl; intros H; [constructor|]. apply andb_true_iff in H. destruct H as [H1 H2].
  constructor; [|auto]. intros Hi. apply str_mem_In in Hi. rewrite Hi in H1. discriminate.
Qed.
Lemma good_names_dec l : nodup_str l && forallb is_name l = true -> good_names l.
Proof.
  intros H. apply andb_true_iff in H. destruct H as [H1 H2]. split; [apply nodup_str_ok, H1|].
  apply Forall_forall. rewrite forallb_forall in H2. exact H2.
Qed.
Lemma ku_good : good_names KU_NAMES. Proof. apply good_names_dec. reflexivity. Qed.
Lemma fail_good : good_names FAIL_NAMES. Proof. apply good_names_dec. reflexivity. Qed.

(** ** Strictness *)
Lemma level_inj a b : level a = level b -> a = b.
Proof. destruct a, b; simpl; intros H; try reflexivity; discriminate. Qed.
Lemma strictness_of_int_ok i st : strictness_of_int i = Ok st <-> i = level st.
Proof.
  unfold strictness_of_int. split.
  - destruct (Z.eqb_spec i 0); [|destruct (Z.eqb_spec i 1); [|destruct (Z.eqb_spec i 2); [|destruct (Z.eqb_spec i 3)]]];
      intros H; try discriminate; injection H as <-; assumption.
  - intros ->. destruct st; reflexivity.
Qed.
Lemma strictness_of_int_err i e : strictness_of_int i = Err e -> e = EValueError.
Proof. unfold strictness_of_int. repeat (destruct (_ =? _)%Z; [discriminate|]). congruence. Qed.
Lemma upper_digit c : is_digit c = true -> is_digit (upper_ascii c) = true.
Proof. destruct c as [[] [] [] [] [] [] [] []]; vm_compute; intros H; try discriminate H; reflexivity. Qed.
Lemma upper_digits s : isdigit s = true -> isdigit (upper s) = true.
Proof.
  destruct s as [|c r]; [discriminate|]. simpl. rewrite !andb_true_iff. intros [H1 H2]. split; [apply upper_digit, H1|].
  clear H1. induction r as [|d r IH]; [reflexivity|]. simpl in *. apply andb_true_iff in H2. destruct H2 as [H1 H2].
  rewrite (upper_digit d H1). auto.
Qed.
Lemma strictness_get_str s st :
  strictness_get (VStr s) = Ok st <-> (isdigit s = true /\ digits_val 0 s = level st) \/ upper s = label st.
Proof.
  unfold strictness_get. destruct (isdigit s) eqn:D.
  - rewrite strictness_of_int_ok. split; [auto|]. intros [[_ H]|H]; [exact H|]. exfalso.
    apply upper_digits in D. rewrite H in D. destruct st; discriminate.
  - cbv zeta. split.
    + intros H. right.
      destruct (String.eqb_spec (upper s) "NONE") as [E|_]; [injection H as <-; exact E|].
      destruct (String.eqb_spec (upper s) "LAX") as [E|_]; [injection H as <-; exact E|].
      destruct (String.eqb_spec (upper s) "STRICT") as [E|_]; [injection H as <-; exact E|].
      destruct (String.eqb_spec (upper s) "ABS_STRICT") as [E|_]; [injection H as <-; exact E|discriminate].
    + intros [[H _]|H]; [discriminate|]. rewrite H. destruct st; reflexivity.
Qed.
Lemma strictness_get_err v e : strictness_get v = Err e -> e = EValueError.
Proof.
  destruct v as [s|i]; simpl; [|apply strictness_of_int_err]. destruct (isdigit s); [apply strictness_of_int_err|].
  repeat (destruct (String.eqb _ _); [discriminate|]). congruence.
Qed.

(** ** Key usage *)
Lemma count_all l : count_set l = length l <-> Forall (fun b => b = true) l.
Proof.
  assert (forall k, (count_set k <= length k)%nat) as L.
  { intros k. unfold count_set. induction k as [|[] k IH]; simpl; lia. }
  induction l as [|b l IH]; [split; [constructor|reflexivity]|]. destruct b.
  - change (count_set (true :: l)) with (S (count_set l)). simpl length. split.
    + intros H. constructor; [reflexivity|]. apply IH. lia.
    + intros H. inversion H; subst. f_equal. apply IH. assumption.
  - change (count_set (false :: l)) with (count_set l). simpl length. split.
    + intros H. specialize (L l). lia.
    + intros H. inversion H; discriminate.
Qed.
Lemma lists_self n : is_name n = true -> lists is_space n [n].
Proof. intros _. apply (lists_plain is_space [n]). discriminate. Qed.

Lemma check_usage_any x s ns :
  lists is_space s ns -> (forall n, In n ns -> In n KU_NAMES) ->
  exists b, check_key_usage s (ku x) false = Ok b /\ (b = true <-> forall n, In n ns -> allows x n).
Proof.
  intros Hl Hin. pose proof (sub_names _ _ ku_good Hin) as Hn. unfold check_key_usage, ku. rewrite get_names_eq. cbn [bind]. cbv zeta.
  destruct Hl as (Hne & parts & -> & F). rewrite (split_parts is_space parts ns within_space Hne Hn F), (strip_parts is_space parts ns within_space Hn F).
  assert (exists bs, mapM (fun n => is_bit_set {| b_names := KU_NAMES; b_val := Some x |} (AStr n) false) ns = Ok bs /\
                     Forall2 (fun n b => b = true <-> allows x n) ns bs) as (bs & E & Fb).
  { clear F Hne. induction ns as [|n ns IH]; [exists []; split; [reflexivity|constructor]|].
    inversion Hn as [|? ? Hn1 Hn2]; subst. destruct IH as (bs & E & Fb); [intros m H; apply Hin; right; exact H|exact Hn2|].
    destruct (names_any KU_NAMES x n [n] ku_good (lists_self n Hn1)) as (b & Eb & Hb); [intros m [<-|[]]; apply Hin; left; reflexivity|].
    exists (b :: bs). unfold bits in Eb. cbn [mapM]. rewrite Eb. cbn [bind]. rewrite E. split; [reflexivity|].
    constructor; [|exact Fb]. rewrite Hb. unfold allows. split; [intros (m & [<-|[]] & H); exact H|intros H; exists n; split; [left; reflexivity|exact H]]. }
  rewrite E. cbn [bind]. exists (Nat.eqb (length ns) (count_set bs)). split; [reflexivity|].
  rewrite Nat.eqb_eq. pose proof (Forall2_len _ _ _ Fb) as L. rewrite L. split.
  - intros H. symmetry in H. apply count_all in H. clear E L Hn Hin Hne F. induction Fb as [|n b ns bs Hb Fb IH]; [intros m []|].
    inversion H; subst. intros m [<-|Hm]; [apply Hb; reflexivity|auto].
  - intros H. symmetry. apply count_all. clear E L Hn Hin Hne F. induction Fb as [|n b ns bs Hb Fb IH]; [constructor|].
    constructor; [apply Hb, H; left; reflexivity|apply IH; intros m Hm; apply H; right; exact Hm].
Qed.

Lemma named_set_listed names ns y : NoDup names -> (forall n, In n ns -> In n names) ->
  (forall i, is_set y i <-> exists n, In n ns /\ nth_error names i = Some n) ->
  forall n, named_set names y n <-> In n ns.
Proof.
  intros Hd Hin S n. split.
  - intros (i & Hi & Hs). apply S in Hs. destruct Hs as (m & Hm & Ei). congruence.
  - intros H. destruct (In_nth_error names n (Hin n H)) as (i & Hi). exists i. split; [exact Hi|]. apply S. eauto.
Qed.

Lemma check_usage_same x s ns :
  lists is_space s ns -> (forall n, In n ns -> In n KU_NAMES) ->
  exists b, check_key_usage s (ku x) true = Ok b /\ (b = true <-> forall n, In n ns <-> allows x n).
Proof.
  intros Hl Hin. unfold check_key_usage, ku. rewrite get_names_eq. cbn [bind].
  destruct (bitstr_of_ok KU_NAMES s ns ku_good Hl Hin) as (y & E & Sy). rewrite E. cbn [bind]. unfold bits.
  rewrite get_names_eq. cbn [bind].
  exists (String.eqb (String.concat ", " (names_set KU_NAMES x)) (String.concat ", " (names_set KU_NAMES (y ++ [true])))).
  split; [reflexivity|]. rewrite String.eqb_eq.
  pose proof (named_set_listed KU_NAMES ns _ (proj1 ku_good) Hin Sy) as Hy.
  assert (forall z, Forall (fun n => is_name n = true) (names_set KU_NAMES z)) as Hz.
  { intros z. apply Forall_forall. intros n. apply names_set_names, ku_good. }
  split.
  - intros H. apply concat_inj in H; [|apply Hz|apply Hz]. rewrite (names_set_eq KU_NAMES _ _ (proj1 ku_good)) in H.
    intros n. rewrite <- Hy. unfold allows. rewrite H. tauto.
  - intros H. f_equal. apply (names_set_eq KU_NAMES _ _ (proj1 ku_good)). intros n. rewrite Hy, H. unfold allows. tauto.
Qed.

Lemma validate_exact c s ns v st :
  strictness_get v = Ok st -> lists is_space s ns -> (forall n, In n ns -> In n KU_NAMES) ->
  (usage_ok st (k_usage c) ns -> validate_key_usage c s v = Ok tt) /\
  (~ usage_ok st (k_usage c) ns -> validate_key_usage c s v = Err EBadKeyUsage).
Proof.
  intros Ev Hl Hin. unfold validate_key_usage. rewrite Ev. cbn [bind].
  destruct (k_usage c) as [x|].
  - destruct (check_usage_any x s ns Hl Hin) as (b & Eb & Hb). destruct (check_usage_same x s ns Hl Hin) as (b' & Eb' & Hb').
    destruct st; cbv zeta; cbn [usage_ok].
    + split; [reflexivity|intros H; exfalso; apply H; exact I].
    + rewrite Eb. cbn [bind]. rewrite <- Hb. destruct b; split; intros H; try reflexivity; [exfalso; apply H; reflexivity|discriminate].
    + rewrite Eb. cbn [bind]. rewrite <- Hb. destruct b; split; intros H; try reflexivity; [exfalso; apply H; reflexivity|discriminate].
    + rewrite Eb'. cbn [bind]. rewrite <- Hb'. destruct b'; split; intros H; try reflexivity; [exfalso; apply H; reflexivity|discriminate].
  - destruct st; cbn [usage_ok]; split; intros H; try reflexivity; try contradiction; exfalso; apply H; exact I.
Qed.

Lemma unknown_one x n excl : is_name n = true -> ~ In n KU_NAMES ->
  is_bit_set {| b_names := KU_NAMES; b_val := Some x |} (AStr n) excl = Err EValueError.
Proof.
  intros Hn Hni. apply (unknown_name KU_NAMES x n [n] n excl); [constructor; [exact Hn|constructor]|apply lists_self, Hn|left; reflexivity|exact Hni].
Qed.
Lemma validate_unknown x s ns n v st eku :
  strictness_get v = Ok st -> st <> NONE -> Forall (fun m => is_name m = true) ns -> lists is_space s ns -> In n ns ->
  ~ In n KU_NAMES ->
  validate_key_usage {| k_usage := Some x; k_eku := eku |} s v =
  Err (match st with ABS_STRICT => EPyAsn1 | _ => EValueError end).
Proof.
  intros Ev Hst Hn Hl Hi Hni. unfold validate_key_usage. rewrite Ev. cbn [bind k_usage].
  assert (check_key_usage s (ku x) false = Err EValueError) as A.
  { unfold check_key_usage, ku. rewrite get_names_eq. cbn [bind]. cbv zeta.
    destruct Hl as (Hne & parts & -> & F). rewrite (split_parts is_space parts ns within_space Hne Hn F), (strip_parts is_space parts ns within_space Hn F).
    rewrite (mapM_err _ ns EValueError); [reflexivity| |].
    - intros m Hm. rewrite Forall_forall in Hn. destruct (In_dec string_dec m KU_NAMES) as [Hk|Hk].
      + destruct (names_any KU_NAMES x m [m] ku_good (lists_self m (Hn m Hm))) as (b & Eb & _); [intros k [<-|[]]; exact Hk|].
        unfold bits in Eb. rewrite Eb. exact I.
      + rewrite (unknown_one x m false (Hn m Hm) Hk). reflexivity.
    - exists n. split; [exact Hi|]. rewrite Forall_forall in Hn. exact (unknown_one x n false (Hn n Hi) Hni). }
  assert (check_key_usage s (ku x) true = Err EPyAsn1) as A'.
  { unfold check_key_usage, ku. rewrite get_names_eq. cbn [bind]. rewrite (bitstr_of_unknown KU_NAMES s ns n Hn Hl Hi Hni). reflexivity. }
  destruct st; [contradiction|..]; cbv zeta; rewrite ?A, ?A'; reflexivity.
Qed.

Lemma must_not_exact x eku s ns b :
  lists is_space s ns -> (forall n, In n ns -> In n KU_NAMES) ->
  ((forall n, In n ns -> allows x n) -> must_not_contain_key_usage {| k_usage := Some x; k_eku := eku |} s b = Err EBadKeyUsage) /\
  (~ (forall n, In n ns -> allows x n) -> must_not_contain_key_usage {| k_usage := Some x; k_eku := eku |} s b = Ok tt).
Proof.
  intros Hl Hin. unfold must_not_contain_key_usage. cbn [k_usage].
  destruct (check_usage_any x s ns Hl Hin) as (r & Er & Hr). rewrite Er. cbn [bind]. rewrite <- Hr.
  destruct r; split; intros H; try reflexivity; [exfalso; apply H; reflexivity|discriminate].
Qed.

Lemma prepare_exact s ns c :
  lists is_space s ns -> (forall n, In n ns -> In n KU_NAMES) ->
  exists y, prepare_key_usage_extension s c = Ok ((y ++ [true])%list, c) /\ (forall n, allows (y ++ [true]) n <-> In n ns).
Proof.
  intros Hl Hin. destruct (bitstr_of_ok KU_NAMES s ns ku_good Hl Hin) as (y & E & Sy). exists y.
  unfold prepare_key_usage_extension. rewrite E. split; [reflexivity|].
  exact (named_set_listed KU_NAMES ns _ (proj1 ku_good) Hin Sy).
Qed.
Lemma prepare_unknown s ns n c :
  Forall (fun m => is_name m = true) ns -> lists is_space s ns -> In n ns -> ~ In n KU_NAMES ->
  prepare_key_usage_extension s c = Err EValueError.
Proof. intros Hn Hl Hi Hni. unfold prepare_key_usage_extension. rewrite (bitstr_of_unknown KU_NAMES s ns n Hn Hl Hi Hni). reflexivity. Qed.

Lemma prepared_accepted s ns c y cr v st eku :
  lists is_space s ns -> (forall n, In n ns -> In n KU_NAMES) -> prepare_key_usage_extension s c = Ok (y, cr) ->
  strictness_get v = Ok st -> validate_key_usage {| k_usage := Some y; k_eku := eku |} s v = Ok tt.
Proof.
  intros Hl Hin E Ev. destruct (prepare_exact s ns c Hl Hin) as (y' & E' & S).
  assert (y = (y' ++ [true])%list) as -> by congruence.
  apply (proj1 (validate_exact {| k_usage := Some (y' ++ [true])%list; k_eku := eku |} s ns v st Ev Hl Hin)).
  cbn [k_usage]. destruct st; cbn [usage_ok]; auto; intros n; rewrite S; tauto.
Qed.

(** ** Extended key usage *)
Lemma three_names ns : (forall n, In n ns -> In n THREE) -> Forall (fun n => is_name n = true) ns.
Proof. intros H. apply Forall_forall. intros n Hn. apply H in Hn. destruct Hn as [<-|[<-|[<-|[]]]]; reflexivity. Qed.

Lemma expected_exact ns : ns <> [] -> (forall n, In n ns -> In n THREE) ->
  exists l, expected_eku (String.concat "," ns) = Ok l /\ NoDup l /\ forall o, In o l <-> exists n, In n ns /\ eku_oid n o.
Proof.
  intros Hne Hin. unfold expected_eku. rewrite (split_plain ns Hne (three_names ns Hin)). cbv zeta.
  assert (existsb (fun n => negb (str_mem n ["cmcCA"; "cmcRA"; "cmKGA"])) ns = false) as Hx.
  { apply Bool.not_true_is_false. intros H. apply existsb_exists in H. destruct H as (n & Hn & H). apply Hin, str_mem_In in Hn.
    unfold THREE in Hn. rewrite Hn in H. discriminate. }
  rewrite Hx. set (l := map fst (filter (fun p => str_mem (snd p) ns) CMP_EKU)).
  assert (forall o, In o l <-> exists n, In n ns /\ eku_oid n o) as Hl.
  { intros o. unfold l. rewrite in_map_iff. split.
    - intros ([o' n] & <- & H). apply filter_In in H. destruct H as [H1 H2]. apply str_mem_In in H2. simpl in H2. exists n. split; [exact H2|].
      unfold CMP_EKU in H1. destruct H1 as [H|[H|[H|[]]]]; injection H as <- <-; unfold eku_oid, CM_KGA, CMC_RA, CMC_CA; auto.
    - intros (n & Hn & H). exists (o, n). split; [reflexivity|]. apply filter_In. split.
      + destruct H as [(-> & ->)|[(-> & ->)|(-> & ->)]]; unfold CMP_EKU, CM_KGA, CMC_RA, CMC_CA; simpl; auto.
      + apply str_mem_In, Hn. }
  assert (NoDup l) as Hd.
  { unfold l, CMP_EKU. cbn [filter snd]. destruct (str_mem "cmKGA" ns), (str_mem "cmcRA" ns), (str_mem "cmcCA" ns); cbn [map fst];
      unfold CM_KGA, CMC_RA, CMC_CA; repeat constructor; simpl; intuition discriminate. }
  exists l. split; [|split; assumption]. destruct l as [|a r] eqn:El; [|reflexivity].
  exfalso. destruct ns as [|n ns]; [contradiction|]. pose proof (Hin n (or_introl eq_refl)) as H3.
  assert (exists o, eku_oid n o) as (o & Ho).
  { destruct H3 as [<-|[<-|[<-|[]]]]; unfold eku_oid; eexists; auto. }
  destruct (proj2 (Hl o)). exists n. split; [left; reflexivity|exact Ho].
Qed.

Lemma found_count (l eku : list oid) : NoDup l -> NoDup eku ->
  (length l = length (filter (fun o => mem o l) eku) <-> forall o, In o l -> In o eku).
Proof.
  intros Hl He. assert (NoDup (filter (fun o => mem o l) eku)) as Hf by (apply NoDup_filter, He).
  assert (incl (filter (fun o => mem o l) eku) l) as Hi.
  { intros o Ho. apply filter_In in Ho. destruct Ho as [_ Ho]. apply mem_In. exact Ho. }
  split.
  - intros L o Ho. pose proof (NoDup_length_incl Hf (Nat.eq_le_incl _ _ L) Hi) as Hr. apply Hr in Ho. apply filter_In in Ho. tauto.
  - intros H. apply Nat.le_antisymm; apply NoDup_incl_length; auto.
    intros o Ho. apply filter_In. split; [apply H, Ho|apply mem_In, Ho].
Qed.

Lemma eku_exact c ns v st :
  strictness_get v = Ok st -> ns <> [] -> (forall n, In n ns -> In n THREE) ->
  (forall l, k_eku c = Some l -> NoDup l) ->
  (eku_ok st (k_eku c) ns -> validate_cmp_extended_key_usage c (String.concat "," ns) v = Ok tt) /\
  (~ eku_ok st (k_eku c) ns -> validate_cmp_extended_key_usage c (String.concat "," ns) v = Err EValueError).
Proof.
  intros Ev Hne Hin Hd. unfold validate_cmp_extended_key_usage. rewrite Ev. cbn [bind].
  destruct (k_eku c) as [eku|].
  - specialize (Hd eku eq_refl). destruct (expected_exact ns Hne Hin) as (l & E & Hl & Sl). rewrite E. cbn [bind]. cbv zeta.
    pose proof (found_count l eku Hl Hd) as FC.
    assert (Nat.eqb (length l) (length (filter (fun o => mem o l) eku)) = true <-> forall n o, In n ns -> eku_oid n o -> In o eku) as FC'.
    { rewrite Nat.eqb_eq, FC. split; [intros H n o Hn Ho; apply H, Sl; eauto|].
      intros H o Ho. apply Sl in Ho. destruct Ho as (n & Hn & Ho). eauto. }
    destruct st; cbn [eku_ok].
    + split; [reflexivity|intros H; exfalso; apply H; exact I].
    + rewrite <- FC'. destruct (Nat.eqb _ _); cbn [guard bind]; split; intros H; try reflexivity; [exfalso; apply H; reflexivity|discriminate].
    + rewrite <- FC'. destruct (Nat.eqb _ _); cbn [guard bind]; split; intros H; try reflexivity; [exfalso; apply H; reflexivity|discriminate].
    + assert ((forall o, In o eku <-> exists n, In n ns /\ eku_oid n o) <->
              Nat.eqb (length l) (length (filter (fun o => mem o l) eku)) = true /\ Nat.eqb (length eku) (length l) = true) as A.
      { split.
        - intros H. split; [apply FC'; intros n o Hn Ho; apply H; eauto|]. apply Nat.eqb_eq. apply Nat.le_antisymm; apply NoDup_incl_length; auto.
          + intros o Ho. apply Sl, H, Ho. + intros o Ho. apply H, Sl, Ho.
        - intros [H1 H2] o. pose proof (proj1 FC (proj1 (Nat.eqb_eq _ _) H1)) as Hsub. apply Nat.eqb_eq in H2. split; [|intros Ho; apply Hsub, Sl, Ho].
          intros Ho. apply Sl. exact (NoDup_length_incl Hl (Nat.eq_le_incl _ _ H2) Hsub o Ho). }
      rewrite A. destruct (Nat.eqb (length l) _); cbn [guard bind]; [|split; [intros [H _]; discriminate|reflexivity]].
      destruct (Nat.eqb (length eku) _); cbn [guard]; split; intros H; try reflexivity.
      * exfalso. apply H. auto. * destruct H; discriminate.
  - destruct st; cbn [eku_ok]; split; intros H; try reflexivity; try contradiction; exfalso; apply H; exact I.
Qed.

Lemma expected_unknown parts : parts <> [] -> Forall (fun s => no_char "," s = true) parts ->
  strip is_blank (String.concat "," parts) = String.concat "," parts ->
  (exists q, In q parts /\ ~ In q THREE) -> expected_eku (String.concat "," parts) = Err EValueError.
Proof.
  intros Hne Hc Hs (q & Hq & Hn). unfold expected_eku. rewrite Hs, (split_concat "," parts Hne Hc). cbv zeta.
  assert (existsb (fun n => negb (str_mem n ["cmcCA"; "cmcRA"; "cmKGA"])) parts = true) as ->.
  { apply existsb_exists. exists q. split; [exact Hq|]. apply negb_true_iff. apply Bool.not_true_is_false. intros H. apply str_mem_In in H. contradiction. }
  destruct (map fst _); reflexivity.
Qed.

(** ** Named integers *)
Lemma numbered_dec named :
  forallb (fun q => Z.eqb (snd (fst q)) (Z.of_nat (snd q))) (combine named (seq 0 (length named))) = true -> numbered named.
Proof.
  unfold numbered. intros H i p Hi. rewrite forallb_forall in H.
  assert (In (p, i) (combine named (seq 0 (length named)))) as Hc.
  { assert (forall a l j, nth_error l j = Some p -> In (p, (a + j)%nat) (combine l (seq a (length l)))) as A.
    { clear. intros a l. revert a. induction l as [|q l IH]; intros a j Hj; [destruct j; discriminate|]. destruct j as [|j].
      - simpl in Hj. injection Hj as ->. simpl. left. f_equal. lia.
      - right. replace (a + S j)%nat with (S a + j)%nat by lia. apply IH. exact Hj. }
    apply (A O named i Hi). }
  apply H in Hc. apply Z.eqb_eq in Hc. exact Hc.
Qed.
Lemma nth_error_map_fst (l : list (string * Z)) i n : nth_error (map fst l) i = Some n -> exists z, nth_error l i = Some (n, z).
Proof.
  revert i. induction l as [|[a z] l IH]; intros [|i]; simpl; try discriminate; [|apply IH]. intros H. injection H as ->. exists z. reflexivity.
Qed.
Lemma padded_strip_blank q n : is_name n = true -> padded is_blank q n -> strip is_blank q = n.
Proof. intros Hn (a & b & Ha & Hb & ->). apply strip_pad; auto. apply name_no; [exact within_blank|exact Hn]. Qed.

Lemma compare_one named v n : NoDup (map fst named) -> numbered named -> is_name n = true -> In n (map fst named) ->
  exists b, asn1_compare_named_integer named v n = Ok b /\ (b = true <-> In (n, v) named).
Proof.
  intros Hd Hnum Hn Hin. unfold asn1_compare_named_integer. cbv zeta. rewrite (proj2 (str_mem_In n (map fst named)) Hin).
  rewrite (strip_clean is_blank n (name_no is_blank n within_blank Hn)).
  destruct (str_index n (map fst named)) as [i|] eqn:E; [|apply str_index_none in E; contradiction].
  apply str_index_some in E. destruct (nth_error_map_fst named i n E) as (z & Hz).
  pose proof (Hnum i _ Hz) as Ez. cbn [snd] in Ez. subst z. exists (Z.of_nat i =? v)%Z. split; [reflexivity|].
  rewrite Z.eqb_eq. split; [intros <-; eapply nth_error_In; eauto|]. intros H.
  destruct (In_nth_error named (n, v) H) as (j & Hj). assert (j = i) as ->; [|congruence].
  apply (proj1 (NoDup_nth_error (map fst named)) Hd).
  - rewrite map_length. apply nth_error_Some. congruence.
  - rewrite E. apply (map_nth_error fst) in Hj. exact Hj.
Qed.

Lemma compare_exact named v s ns (excl : bool) :
  NoDup (map fst named) -> Forall (fun n => is_name n = true) (map fst named) -> numbered named ->
  lists is_blank s ns -> (forall n, In n ns -> In n (map fst named)) ->
  exists b, asn1_compare_named_values (NInt named v) s excl false = Ok b /\
            (b = true <-> excl = true /\ exists n, In n ns /\ In (n, v) named).
Proof.
  intros Hd Hg Hnum Hl Hin. assert (good_names (map fst named)) as G by (split; assumption).
  pose proof (sub_names _ ns G Hin) as Hn. unfold asn1_compare_named_values.
  destruct (lists_parts is_blank s ns within_blank Hn Hl) as (parts & Ep & F). rewrite Ep.
  assert (exists bs, mapM (fun x => asn1_compare_named_integer named v (strip is_blank x)) parts = Ok bs /\
                     Forall2 (fun n b => b = true <-> In (n, v) named) ns bs) as (bs & E & Fb).
  { clear Ep Hl. induction F as [|q n parts ns Hq F IH]; [exists []; split; [reflexivity|constructor]|].
    inversion Hn as [|? ? Hn1 Hn2]; subst. destruct (IH (fun m H => Hin m (or_intror H)) Hn2) as (bs & E & Fb).
    destruct (compare_one named v n Hd Hnum Hn1 (Hin n (or_introl eq_refl))) as (b & Eb & Hb).
    exists (b :: bs). cbn [mapM]. rewrite (padded_strip_blank q n Hn1 Hq), Eb. cbn [bind]. rewrite E. split; [reflexivity|constructor; assumption]. }
  rewrite E. cbn [bind]. assert (count_set bs = 0%nat <-> ~ exists n, In n ns /\ In (n, v) named) as Hc.
  { rewrite count_zero. split.
    - intros H (n & Hn' & Hv). clear E Hl Hin Hn Ep F. induction Fb as [|m b ns bs Hb Fb IH]; [destruct Hn'|].
      destruct Hn' as [->|Hn']; [apply (H O); unfold is_set; simpl; f_equal; apply Hb, Hv|].
      apply IH; [intros j; apply (H (S j))|exact Hn'].
    - intros H j Hj. apply H. clear E Hl Hin Hn Ep F H. revert j Hj. induction Fb as [|m b ns bs Hb Fb IH]; intros j Hj; [destruct j; discriminate|].
      destruct j as [|j]; [unfold is_set in Hj; simpl in Hj; exists m; split; [left; reflexivity|apply Hb; congruence]|].
      destruct (IH j Hj) as (n & H1 & H2). exists n. split; [right; exact H1|exact H2]. }
  rewrite andb_false_r. exists (if Nat.eqb (count_set bs) 0 then false else excl). split; [reflexivity|].
  destruct (Nat.eqb_spec (count_set bs) 0) as [H|H].
  - split; [discriminate|]. intros [_ Hx]. apply Hc in H. contradiction.
  - split; [intros ->; split; [reflexivity|]|intros [-> _]; reflexivity].
    assert (exists b, In b bs /\ b = true) as (b & Hb & ->).
    { clear - H. induction bs as [|[] bs IH]; [exfalso; apply H; reflexivity|exists true; split; [left; reflexivity|reflexivity]|].
      change (count_set (false :: bs)) with (count_set bs) in H. destruct (IH H) as (b & H1 & H2). exists b. split; [right; exact H1|exact H2]. }
    clear - Fb Hb. induction Fb as [|m b ns bs Hm Fb IH]; [destruct Hb|]. destruct Hb as [->|Hb]; [exists m; split; [left; reflexivity|apply Hm; reflexivity]|].
    destruct (IH Hb) as (n & H1 & H2). exists n. split; [right; exact H1|exact H2].
Qed.
Lemma status_good : NoDup (map fst PKI_STATUS) /\ Forall (fun n => is_name n = true) (map fst PKI_STATUS) /\ numbered PKI_STATUS.
Proof.
  destruct (good_names_dec (map fst PKI_STATUS) eq_refl) as [H1 H2]. split; [exact H1|]. split; [exact H2|]. apply numbered_dec. reflexivity.
Qed.

(** ** Status information *)
Lemma verify_general m body st sts fail excl must allow :
  lists is_blank st sts -> (forall n, In n sts -> In n (map fst PKI_STATUS)) ->
  (verify_pkistatusinfo m body (Some st) fail excl must allow = Ok tt <->
   In (m_body m) BODIES /\ (exists n, In n sts /\ In (n, s_status (m_info m)) PKI_STATUS) /\
   (must = true -> s_fail (m_info m) <> None) /\
   (forall f, fail = Some f -> exists r, is_bit_set (fail_info (m_info m)) (AStr (strip is_space f)) excl = Ok r /\ (allow = true \/ r = true)) /\
   (forall b, body = Some b -> strip is_space b = m_body m)).
Proof.
  intros Hl Hin. destruct status_good as (Sd & Sg & Sn). unfold verify_pkistatusinfo. cbn [bind]. unfold get_pkistatusinfo.
  change ["error"; "rp"; "ip"; "cp"; "kup"; "ccp"; "certConf"] with BODIES.
  destruct (str_mem (m_body m) BODIES) eqn:EB.
  2:{ cbn [bind]. split; [discriminate|]. intros (H & _). apply str_mem_In in H. congruence. }
  apply str_mem_In in EB. cbn [bind].
  destruct (compare_exact PKI_STATUS (s_status (m_info m)) st sts true Sd Sg Sn Hl Hin) as (b & Eb & Hb). rewrite Eb. cbn [bind].
  destruct b; cbn [guard bind].
  2:{ split; [discriminate|]. intros (_ & H & _). assert (false = true) by (apply Hb; auto). discriminate. }
  assert (exists n, In n sts /\ In (n, s_status (m_info m)) PKI_STATUS) as Hst by (apply Hb; reflexivity).
  destruct (negb (negb (is_some (s_fail (m_info m))) && must)) eqn:EM; cbn [guard bind].
  2:{ split; [discriminate|]. intros (_ & _ & H & _). destruct (s_fail (m_info m)); [discriminate|]. destruct must; [|discriminate].
      exfalso. apply H; reflexivity. }
  assert (must = true -> s_fail (m_info m) <> None) as HM.
  { intros ->. destruct (s_fail (m_info m)); [discriminate|]. simpl in EM. discriminate. }
  assert (forall k : result unit,
    (let! _ := match fail with
               | None => Ok tt
               | Some f => let! r := is_bit_set (fail_info (m_info m)) (AStr (strip is_space f)) excl in
                           if r then Ok tt else if allow then Ok tt else Err EValueError
               end in k) = Ok tt <->
    (forall f, fail = Some f -> exists r, is_bit_set (fail_info (m_info m)) (AStr (strip is_space f)) excl = Ok r /\ (allow = true \/ r = true))
    /\ k = Ok tt) as A.
  { intros k. destruct fail as [f|].
    - destruct (is_bit_set (fail_info (m_info m)) (AStr (strip is_space f)) excl) as [r|e] eqn:E; cbn [bind].
      + destruct r; [|destruct allow]; cbn [bind].
        * split; [intros H; split; [|exact H]|intros [_ H]; exact H]. intros f' Hf. injection Hf as <-. exists true. split; [exact E|right; reflexivity].
        * split; [intros H; split; [|exact H]|intros [_ H]; exact H]. intros f' Hf. injection Hf as <-. exists false. split; [exact E|left; reflexivity].
        * split; [discriminate|]. intros [H _]. destruct (H f eq_refl) as (r & Er & [Ha|Hr]); [discriminate|]. congruence.
      + split; [discriminate|]. intros [H _]. destruct (H f eq_refl) as (r & Er & _). congruence.
    - cbn [bind]. split; [intros H; split; [intros f; discriminate|exact H]|intros [_ H]; exact H]. }
  rewrite A. split.
  - intros [H1 H2]. repeat (split; [assumption|]). intros b ->. destruct (String.eqb_spec (strip is_space b) (m_body m)); [assumption|discriminate].
  - intros (_ & _ & _ & H1 & H2). split; [exact H1|]. destruct body as [b|]; [|reflexivity]. rewrite (H2 b eq_refl), String.eqb_refl. reflexivity.
Qed.
Lemma verify_default m body f excl must allow :
  verify_pkistatusinfo m body None (Some f) excl must allow = verify_pkistatusinfo m body (Some "rejection") (Some f) excl must allow.
Proof. reflexivity. Qed.

Lemma rp_exact m : check_rp_body m = Ok tt <-> m_body m = "rp" /\ s_status (m_info m) = 0%Z /\ s_fail (m_info m) = None.
Proof.
  unfold check_rp_body. destruct (String.eqb_spec (m_body m) "rp") as [E|E]; cbn [guard bind]; [|split; [discriminate|intros [H _]; contradiction]].
  unfold get_pkistatusinfo. rewrite E. change (str_mem "rp" _) with true. cbn [bind].
  destruct status_good as (Sd & Sg & Sn).
  destruct (compare_exact PKI_STATUS (s_status (m_info m)) "accepted" ["accepted"] true Sd Sg Sn) as (b & Eb & Hb).
  { apply (lists_plain is_blank ["accepted"]). discriminate. } { intros n [<-|[]]. left. reflexivity. }
  rewrite Eb. cbn [bind].
  assert (b = true <-> s_status (m_info m) = 0%Z) as Hb'.
  { rewrite Hb. split.
    - intros (_ & n & [<-|[]] & H). unfold PKI_STATUS in H. simpl in H. intuition congruence.
    - intros ->. split; [reflexivity|]. exists "accepted". split; left; reflexivity. }
  destruct b.
  - destruct (s_fail (m_info m)); cbn [is_some negb guard]; split; [discriminate|intros (_ & _ & H); discriminate|intros _|reflexivity].
    split; [reflexivity|]. split; [apply Hb'; reflexivity|reflexivity].
  - assert (s_status (m_info m) <> 0%Z) as Hne by (intros H; apply Hb' in H; discriminate).
    cbn [bind]. split; [|intros (_ & H & _); contradiction].
    unfold asn1_compare_named_values.
    change (mapM (fun x => asn1_compare_named_integer PKI_STATUS (s_status (m_info m)) (strip is_blank x)) (split "," (strip is_blank "rejected")))
      with (@Err (list bool) EValueError). discriminate.
Qed.
