(** Proofs for HdrProperties.v, second part: body types, generalInfo, times,
    sender fields, the header check. *)
From Coq Require Import String.
From Verif Require Import Prelude PreludeFacts HdrModel HdrSpec HdrProofs.
Open Scope Z_scope.

(** ** Body types *)

Fixpoint msg_induction (P : msg -> Prop)
  (H : forall h b l p c, Forall P l -> P (Msg h b l p c)) (m : msg) : P m :=
  let 'Msg h b l p c := m in
  H h b l p c ((fix go (l : list msg) : Forall P l :=
    match l with [] => Forall_nil P | x :: l' => Forall_cons x (msg_induction P H x) (go l') end) l).

Scheme answers_mut := Induction for answers Sort Prop
  with all_answers_mut := Induction for all_answers Sort Prop.

Lemma correct_body b e : b <> Bnested -> (correct_body_types b = Some e <-> answer_body b e).
Proof.
  intros N. split.
  - destruct b; cbn; intros H; try discriminate; try (injection H as <-; constructor). congruence.
  - intros H. destruct H; reflexivity.
Qed.

Lemma answer_not_nested b e : answer_body b e -> b <> Bnested.
Proof. destruct 1; discriminate. Qed.

Lemma answer_not_error b e : answer_body b e -> e <> Berror.
Proof. destruct 1; discriminate. Qed.

Lemma body_type_ok_iff q e r error : answer_body q e ->
  (body_type_ok e r error = true <-> acceptable error q r).
Proof.
  intros A. unfold acceptable.
  assert (U : forall e', answer_body q e' -> e' = e).
  { intros e' A'. pose proof (answer_not_nested _ _ A) as N. apply (correct_body _ _ N) in A, A'. congruence. }
  assert (X : bname_beq r e = true <-> answer_body q r).
  { rewrite bname_eqb_iff. split; [intros ->; exact A|]. apply U. }
  destruct error as [[|]|]; cbn [body_type_ok].
  - rewrite bname_eqb_iff. split.
    + intros ->. right. split; [discriminate|]. eauto.
    + intros [[H _]|[_ [H _]]]; [congruence|exact H].
  - rewrite X. split.
    + intros H. left. split; [discriminate|exact H].
    + intros [[_ H]|[H _]]; [exact H|congruence].
  - rewrite orb_true_iff, X, bname_eqb_iff. split.
    + intros [H|H]; [left|right]; (split; [discriminate|]); eauto.
    + intros [[_ H]|[_ [H _]]]; auto.
Qed.

Lemma acceptable_known error q r : acceptable error q r -> exists e, answer_body q e.
Proof. intros [[_ A]|[_ [_ A]]]; eauto. Qed.

Lemma acceptable_not_nested error q r : acceptable error q r -> q <> Bnested.
Proof. intros A. apply acceptable_known in A. destruct A as [e A]. apply answer_not_nested in A. exact A. Qed.

Definition pairs_check (error : option bool) :=
  fix pairs (ql rl : list msg) {struct ql} : result unit :=
    match ql, rl with
    | [], _ => Ok tt
    | q :: ql', r :: rl' =>
        let! _ := validate_cmp_body_types q r error in pairs ql' rl'
    | _ :: _, [] => Err EIndexError
    end.

Lemma pairs_check_iff error ql : Forall (fun q => forall r,
    validate_cmp_body_types q r error = Ok tt <-> answers error q r) ql ->
  forall rl, List.length rl = List.length ql ->
  (pairs_check error ql rl = Ok tt <-> all_answers error ql rl).
Proof.
  induction 1 as [|q ql Hq _ IH]; intros [|r rl] L; try discriminate; cbn [pairs_check].
  - split; [constructor|reflexivity].
  - cbn [List.length] in L. split.
    + intros H. apply bind_ok in H. destruct H as [[] [H1 H2]]. constructor.
      * apply Hq, H1.
      * apply IH; [lia|exact H2].
    + intros H. inversion H; subst. rewrite (proj2 (Hq r)) by assumption. cbn [bind].
      apply IH; [lia|assumption].
Qed.

Lemma all_answers_length error ql rl : all_answers error ql rl -> List.length rl = List.length ql.
Proof.
  revert rl. induction ql as [|q ql IH]; intros rl H; inversion H; subst; [reflexivity|].
  cbn [List.length]. f_equal. apply IH. assumption.
Qed.

Lemma bname_beq_neq a b : a <> b -> bname_beq a b = false.
Proof. intros H. destruct (bname_beq a b) eqn:E; [apply bname_eqb_iff in E; contradiction|reflexivity]. Qed.

Lemma single_neq1 (l : list msg) : List.length l <> 1%nat -> (exists x, l = [x]) -> False.
Proof. intros H [x ->]. apply H. reflexivity. Qed.

Lemma nested_batch error h qs p c r : List.length qs <> 1%nat ->
  validate_cmp_body_types (Msg h Bnested qs p c) r error =
  if bname_beq (body r) Berror then
    match error with Some false => Err EValueError | _ => Ok tt end
  else if negb (bname_beq (body r) Bnested) then Err EValueError
  else if negb (Nat.eqb (List.length (inner r)) (List.length qs)) then Err ECMPTestSuite
  else pairs_check error qs (inner r).
Proof.
  intros N. cbn [validate_cmp_body_types correct_body_types bname_beq].
  destruct qs as [|q [|q' qs]]; [reflexivity|exfalso; apply N; reflexivity|reflexivity].
Qed.

Theorem body_types_iff error request : forall response,
  validate_cmp_body_types request response error = Ok tt <-> answers error request response.
Proof.
  induction request as [h b qs p c IH] using msg_induction. intros r.
  destruct (bname_beq b Bnested) eqn:EN.
  - apply bname_eqb_iff in EN. subst b.
    destruct (Nat.eq_dec (List.length qs) 1) as [L1|L1].
    + destruct qs as [|q [|? ?]]; try discriminate.
      inversion IH as [|? ? Hq _]; subst.
      cbn [validate_cmp_body_types correct_body_types bname_beq]. split.
      * intros H. destruct (bname_beq (body r) Bnested) eqn:EB; [discriminate|].
        apply an_added; [intros E; rewrite E in EB; discriminate|]. apply Hq, H.
      * intros H. inversion H; subst; cbn [body] in *; try congruence.
        -- match goal with A : acceptable _ _ _ |- _ => apply acceptable_not_nested in A; cbn [body] in A; congruence end.
        -- rewrite bname_beq_neq by assumption. apply Hq. assumption.
        -- cbn [inner List.length] in *. congruence.
    + rewrite nested_batch by exact L1. split.
      * intros H. destruct (bname_beq (body r) Berror) eqn:E1.
        -- apply bname_eqb_iff in E1. apply an_batch_error; try assumption; try reflexivity.
           intros ->. discriminate.
        -- destruct (bname_beq (body r) Bnested) eqn:E2; cbn [negb] in H; [|discriminate].
           apply bname_eqb_iff in E2.
           destruct (Nat.eqb _ _) eqn:E3; cbn [negb] in H; [|discriminate].
           apply Nat.eqb_eq in E3. apply an_batch; try assumption.
           apply (pairs_check_iff error qs); assumption.
      * intros H. inversion H; subst.
        -- match goal with A : acceptable _ _ _ |- _ => apply acceptable_not_nested in A; cbn [body] in A; congruence end.
        -- exfalso. apply L1. reflexivity.
        -- match goal with A : body r = Berror |- _ => rewrite A end. cbn [bname_beq].
           destruct error as [[|]|]; congruence.
        -- match goal with A : body r = Bnested |- _ => rewrite A end. cbn [bname_beq negb].
           match goal with A : all_answers _ _ _ |- _ => pose proof (all_answers_length _ _ _ A) as L;
             rewrite L, Nat.eqb_refl; cbn [negb]; apply (pairs_check_iff error qs); assumption end.
  - assert (NB : b <> Bnested) by (intros ->; discriminate).
    cbn [validate_cmp_body_types]. rewrite EN.
    destruct (correct_body_types b) as [e|] eqn:C.
    + apply correct_body in C; [|exact NB]. split.
      * intros H. apply an_single. cbn [body]. apply (body_type_ok_iff _ e); [exact C|].
        destruct (body_type_ok e (body r) error); [reflexivity|discriminate].
      * intros H. inversion H; subst; cbn [body] in *; try congruence.
        match goal with A : acceptable _ _ _ |- _ => apply (body_type_ok_iff _ e) in A; [|exact C]; rewrite A end.
        reflexivity.
    + split; [discriminate|]. intros H. exfalso. inversion H; subst; cbn [body] in *; try congruence.
      match goal with A : acceptable _ _ _ |- _ => apply acceptable_known in A; cbn [body] in A;
        destruct A as [e A]; apply correct_body in A; congruence end.
Qed.

(** ** generalInfo *)

Lemma itype_eqb_iff a b : itype_beq a b = true <-> a = b.
Proof. split; [apply internal_itype_dec_bl | apply internal_itype_dec_lb]. Qed.

Lemma info_value_iff t l v : info_value t l = Some v <-> first_info t l v.
Proof.
  induction l as [|[t' v'] l IH]; cbn [info_value].
  - split; [discriminate|]. intros H. inversion H.
  - destruct (itype_beq t t') eqn:E.
    + apply itype_eqb_iff in E. subst t'. split.
      * intros H. injection H as ->. constructor.
      * intros H. inversion H; subst; [reflexivity|congruence].
    + assert (N : t' <> t). { intros ->. rewrite (proj2 (itype_eqb_iff t t) eq_refl) in E. discriminate. }
      rewrite IH. split.
      * intros H. constructor; assumption.
      * intros H. inversion H; subst; [congruence|assumption].
Qed.

Lemma info_value_none t l : info_value t l = None <-> forall v, ~ In (t, v) l.
Proof.
  induction l as [|[t' v'] l IH]; cbn [info_value In].
  - split; [auto|reflexivity].
  - destruct (itype_beq t t') eqn:E.
    + apply itype_eqb_iff in E. subst. split; [discriminate|]. intros H. exfalso. apply (H v'). auto.
    + rewrite IH. split.
      * intros H v [F|F]; [|apply (H v); exact F]. injection F as -> ->.
        rewrite (proj2 (itype_eqb_iff t t) eq_refl) in E. discriminate.
      * intros H v F. apply (H v). auto.
Qed.

Definition null_value (v : ivalue) : Prop := v = VNull \/ v = VBytes [5; 0].

Theorem implicitconfirm_iff m :
  check_implicitconfirm m = Ok tt <->
  forall v, first_info_of ImplicitConfirm m v ->
    (v = VNull \/ v = VBytes [5; 0]) /\
    (body m = Bip \/ body m = Bcp \/ body m = Bkup \/ body m = Bir \/ body m = Bcr \/ body m = Bkur \/ body m = Bp10cr).
Proof.
  unfold check_implicitconfirm, first_info_of.
  destruct (h_ginfo (hdr m)) as [l|]; [|split; [intros _ v [l [E _]]; discriminate|reflexivity]].
  destruct (info_value ImplicitConfirm l) as [v|] eqn:I.
  - apply info_value_iff in I. split.
    + intros H v' [l' [E F]]. injection E as <-.
      apply info_value_iff in I. apply info_value_iff in F. assert (v' = v) by congruence. subst v'.
      inv_ok. split.
      * destruct v as [|b|]; cbn [is_null] in H1; try discriminate; auto. right. f_equal.
        apply bytes_eqb_iff. congruence.
      * destruct (body m); cbn in H0; try discriminate; auto 10.
    + intros H. destruct (H v) as [[-> | ->] B]; [exists l; auto| |].
      * assert (implicit_confirm_body (body m) = true) as -> by (destruct (body m); intuition discriminate).
        reflexivity.
      * assert (implicit_confirm_body (body m) = true) as -> by (destruct (body m); intuition discriminate).
        reflexivity.
  - split; [|reflexivity]. intros _ v [l' [E F]]. injection E as <-. apply info_value_iff in F. congruence.
Qed.

Lemma info_in_iff t m : info_in t m <-> exists l, h_ginfo (hdr m) = Some l /\ info_value t l <> None.
Proof.
  unfold info_in. split.
  - intros [l [v [E H]]]. exists l. split; [exact E|]. intros N. rewrite info_value_none in N. exact (N v H).
  - intros [l [E N]]. destruct (info_value t l) as [v|] eqn:I; [|congruence].
    exists l, v. split; [exact E|]. clear E. apply info_value_iff in I. induction I; cbn [In]; auto.
Qed.

Theorem confirmwaittime_iff e m :
  check_confirmwaittime e m = Ok tt <->
  forall v, first_info_of ConfirmWaitTime m v ->
    ~ info_in ImplicitConfirm m /\
    exists b t, v = VBytes b /\ e_dec_time e b = Some (t, []) /\ e_now e < t.
Proof.
  unfold check_confirmwaittime. split.
  - intros H v [l [E F]]. rewrite E in H. apply info_value_iff in F. rewrite F in H.
    destruct v as [|b|]; try discriminate.
    destruct (e_dec_time e b) as [[t rest]|] eqn:D; [|discriminate].
    inv_ok. subst rest. split.
    + intros I. apply info_in_iff in I. destruct I as [l' [E' N]]. rewrite E in E'. injection E' as <-.
      destruct (info_value ImplicitConfirm l); [discriminate|congruence].
    + exists b, t. split; [reflexivity|]. split; [exact D|]. lia.
  - intros H. destruct (h_ginfo (hdr m)) as [l|] eqn:E; [|reflexivity].
    destruct (info_value ConfirmWaitTime l) as [v|] eqn:I; [|reflexivity].
    destruct (H v) as [N [b [t [-> [D L]]]]]; [exists l; split; [exact E|apply info_value_iff; exact I]|].
    rewrite D. cbn [bytes_eqb guard bind].
    assert ((0 <? t - e_now e) = true) as -> by (apply Z.ltb_lt; lia). cbn [guard bind].
    destruct (info_value ImplicitConfirm l) eqn:II; [|reflexivity].
    exfalso. apply N. apply info_in_iff. exists l. split; [exact E|congruence].
Qed.

Theorem certprofile_iff m :
  check_certprofile m = Ok tt <->
  (info_in CertProfile m ->
   body m = Bir \/ body m = Bcr \/ body m = Bkur \/ body m = Bp10cr \/ body m = Bgenm).
Proof.
  rewrite info_in_iff. unfold check_certprofile. split.
  - intros H [l [E N]]. rewrite E in H. destruct (info_value CertProfile l); [|congruence].
    cbn [is_value] in H. inv_ok. destruct (body m); cbn in H; try discriminate; auto 10.
  - intros H. destruct (h_ginfo (hdr m)) as [l|] eqn:E; [|reflexivity].
    destruct (info_value CertProfile l) eqn:I; cbn [is_value]; [|reflexivity].
    apply guard_ok. assert (X : exists l', Some l = Some l' /\ info_value CertProfile l' <> None)
      by (exists l; split; congruence).
    specialize (H X). destruct (body m); cbn; intuition discriminate.
Qed.

Theorem generalinfo_iff e m :
  check_generalinfo e m = Ok tt <->
  check_implicitconfirm m = Ok tt /\ check_confirmwaittime e m = Ok tt /\ check_certprofile m = Ok tt.
Proof.
  unfold check_generalinfo. split.
  - intros H. inv_ok. auto.
  - intros [-> [-> ->]]. reflexivity.
Qed.

(** ** Times *)

Lemma ginfo_info_in t m : is_value (info_value t (ginfo m)) = true <-> info_in t m.
Proof.
  rewrite is_value_iff, info_in_iff. unfold ginfo. destruct (h_ginfo (hdr m)) as [l|].
  - split; [intros H; exists l; auto|]. intros [l' [E N]]. injection E as <-. exact N.
  - cbn. split; [congruence|]. intros [l' [E _]]. discriminate.
Qed.

Theorem time_iff e m interval rt :
  check_message_time_field e m interval rt = Ok tt <->
  (info_in ConfirmWaitTime m -> set (h_time (hdr m))) /\
  (forall i, interval = Some i -> exists t, h_time (hdr m) = Some t /\
     match rt with
     | None => t <= e_now e <= t + i * 1000000
     | Some q => t <= q + i * 1000000
     end).
Proof.
  unfold check_message_time_field, set. rewrite <- ginfo_info_in.
  rewrite bind_ok. split.
  - intros [[] [G H]]. apply guard_ok in G. split.
    + intros I. rewrite I in G. cbn in G. destruct (h_time (hdr m)); [discriminate|discriminate].
    + intros i ->. destruct (h_time (hdr m)) as [t|]; [|discriminate]. exists t. split; [reflexivity|].
      destruct rt as [q|].
      * inv_ok. unfold second in H. lia.
      * unfold check_message_time_for_request, second in H. inv_ok. lia.
  - intros [A B]. exists tt. split.
    + apply guard_ok. destruct (is_value (info_value ConfirmWaitTime (ginfo m))); [|reflexivity].
      cbn. destruct (h_time (hdr m)); [reflexivity|]. exfalso. apply A; reflexivity.
    + destruct interval as [i|]; [|reflexivity]. destruct (B i eq_refl) as [t [-> H]].
      destruct rt as [q|].
      * apply guard_ok, Z.leb_le. unfold second. lia.
      * unfold check_message_time_for_request, second.
        assert ((0 <=? e_now e - t) = true) as -> by (apply Z.leb_le; lia). cbn [guard bind].
        apply guard_ok, Z.leb_le. lia.
Qed.

(** ** Sender fields *)

Lemma name_notation_from_some key keep l : forall a, exists s,
  name_notation_from key keep (Some a) l = Some s.
Proof.
  induction l as [|[t v] l IH]; intros a; cbn [name_notation_from]; [eauto|].
  destruct (keep t); apply IH.
Qed.


Lemma sappend_assoc a b c : ((a ++ b) ++ c = a ++ (b ++ c))%string.
Proof. induction a as [|x a IH]; cbn; [reflexivity|]. rewrite IH. reflexivity. Qed.

Lemma notation_acc key keep l : forall a,
  name_notation_from key keep (Some a) l =
  Some (join (a :: map (item key) (filter (fun x => keep (fst x)) l))).
Proof.
  induction l as [|[t v] l IH]; intros a; cbn [name_notation_from filter fst map].
  - reflexivity.
  - destruct (keep t); [|apply IH]. rewrite IH. cbn [map].
    f_equal. change (join (a :: item key (t, v) :: map (item key) (filter (fun x => keep (fst x)) l)))
      with (a ++ "," ++ join (item key (t, v) :: map (item key) (filter (fun x => keep (fst x)) l)))%string.
    change (match key t with Some k => k | None => "None"%string end ++ "=" ++ v)%string with (item key (t, v)).
    generalize (map (item key) (filter (fun x => keep (fst x)) l)) as r. intros r.
    destruct r as [|x r]; cbn [join]; [reflexivity|]. rewrite !sappend_assoc. reflexivity.
Qed.

Theorem notation_spec key keep n :
  name_notation key keep n =
  match map (item key) (filter (fun x => keep (fst x)) (n_attrs n)) with
  | [] => "NULL-DN"%string
  | l => join l
  end.
Proof.
  unfold name_notation. destruct n as [d l]. cbn [n_attrs]. clear d.
  induction l as [|[t v] l IH]; cbn [name_notation_from filter fst map]; [reflexivity|].
  destruct (keep t); [|exact IH]. rewrite notation_acc. reflexivity.
Qed.

Theorem protection_present_iff m must b :
  check_is_protection_present m must = Ok b <->
  (b = true /\ protected m) \/ (b = false /\ must = false /\ unprotected m).
Proof.
  unfold check_is_protection_present, protected, unprotected, set.
  destruct (prot m), (h_palg (hdr m)), must, b; split; intros H; try discriminate; try reflexivity;
    try (destruct H as [[? [? ?]]|[? [? [? ?]]]]; congruence).
  - left. repeat split; congruence.
  - left. repeat split; congruence.
  - right. repeat split; congruence.
Qed.


Lemma first_cert_iff e m c : first_cert e m = Ok c <-> cert_for e m c.
Proof.
  unfold first_cert, cert_for. destruct (certs m) as [[|x l]|]; split; intros H; try tauto.
  - destruct H as [[cs E]|[_ H]]; [discriminate|exact H].
  - left. injection H as ->. eauto.
  - destruct H as [[cs E]|[[E|E] _]]; congruence.
  - destruct H as [[cs E]|[_ H]]; [discriminate|exact H].
Qed.

Lemma get_protection_type_iff m p : get_protection_type m = Ok p <-> h_palg (hdr m) = Some p /\ p <> PUnknown.
Proof.
  unfold get_protection_type. destruct (h_palg (hdr m)) as [[]|]; split; intros H; try discriminate;
    try (injection H as <-; split; congruence); destruct H as [H N]; congruence.
Qed.

Lemma is_mac_or_kem_iff p : is_mac_or_kem p = true <-> p = PMac \/ p = PKem.
Proof. destruct p; cbn; split; intros H; auto; try discriminate; destruct H; discriminate. Qed.

Theorem sender_mac_iff e m must allow :
  protected m -> mac_protected m ->
  (check_sender_cmp_protection e m must allow = Ok tt <->
   allow = true \/ exists n, h_sender (hdr m) = GDir n).
Proof.
  intros P M. unfold check_sender_cmp_protection.
  rewrite (proj2 (protection_present_iff m must true)) by auto. cbn [bind].
  assert (E : exists p, get_protection_type m = Ok p /\ is_mac_or_kem p = true /\ is_value (h_palg (hdr m)) = true).
  { destruct M as [M|M]; unfold get_protection_type; rewrite M; eauto. }
  destruct E as [p [-> [K ->]]]. cbn [negb bind]. rewrite K.
  unfold verify_sender_field_for_mac. destruct (h_sender (hdr m)) as [n| | |], allow; split; intros H; auto;
    try (right; eexists; reflexivity); try discriminate; destruct H as [H|[n' H]]; discriminate.
Qed.

Theorem sender_sig_iff e m must p :
  protected m -> h_palg (hdr m) = Some p -> p <> PUnknown -> p <> PMac -> p <> PKem ->
  (check_sender_cmp_protection e m must false = Ok tt <->
   exists c, cert_for e m c /\
     match h_sender (hdr m) with
     | GDir d => n_der d = n_der (c_subject c)
     | GMail s => s = full_notation e (c_subject c)
     | _ => False
     end).
Proof.
  intros P E NU NM NK. unfold check_sender_cmp_protection.
  rewrite (proj2 (protection_present_iff m must true)) by auto. cbn [bind].
  rewrite E. cbn [is_value negb].
  rewrite (proj2 (get_protection_type_iff m p)) by auto. cbn [bind].
  assert (is_mac_or_kem p = false) as ->.
  { destruct (is_mac_or_kem p) eqn:K; [apply is_mac_or_kem_iff in K; tauto|reflexivity]. }
  split.
  - intros H. inv_ok. exists x. apply first_cert_iff in H0. split; [exact H0|].
    unfold compare_general_name_and_name in H1.
    destruct (h_sender (hdr m)); try discriminate; injection H1 as <-.
    + destruct (bytes_eqb _ _) eqn:B; [apply bytes_eqb_iff in B; exact B|discriminate].
    + destruct (String.eqb _ _) eqn:B; [apply String.eqb_eq in B; auto|discriminate].
  - intros [c [C S]]. apply first_cert_iff in C. rewrite C. cbn [bind].
    unfold compare_general_name_and_name. destruct (h_sender (hdr m)); try contradiction; cbn [bind].
    + rewrite (proj2 (bytes_eqb_iff _ _) S). reflexivity.
    + rewrite S, String.eqb_refl. reflexivity.
Qed.

Theorem senderkid_sig_iff e m must allow p :
  protected m -> h_palg (hdr m) = Some p -> p <> PUnknown -> p <> PMac -> p <> PKem ->
  (validate_senderkid e m None must allow = Ok tt <->
   exists kid c, h_kid (hdr m) = Some kid /\ cert_for e m c /\
     (c_ski c = None \/ c_ski c = Some kid)).
Proof.
  intros P E NU NM NK. unfold validate_senderkid.
  rewrite (proj2 (protection_present_iff m false true)) by auto. cbn [bind negb].
  assert (K : is_mac_or_kem p = false).
  { destruct (is_mac_or_kem p) eqn:K; [apply is_mac_or_kem_iff in K; tauto|reflexivity]. }
  split.
  - intros H. inv_ok. apply first_cert_iff in H1. apply get_protection_type_iff in H2.
    destruct H2 as [H2 _]. assert (x1 = p) by congruence. subst x1. rewrite K in H.
    exists x2, x0. split; [assumption|]. split; [assumption|].
    destruct (c_ski x0) as [s|]; [|auto]. inv_ok. subst. auto.
  - intros [kid [c [Ek [C S]]]]. apply first_cert_iff in C.
    rewrite Ek, C. cbn [is_value guard bind].
    rewrite (proj2 (get_protection_type_iff m p)) by auto. cbn [bind octets]. rewrite K.
    destruct S as [-> | ->]; [reflexivity|]. rewrite beqb_refl. reflexivity.
Qed.

Theorem senderkid_mac_iff e m must :
  protected m -> mac_protected m ->
  (validate_senderkid e m None must false = Ok tt <->
   exists kid s n c, h_kid (hdr m) = Some kid /\ e_utf8 e kid = Some s /\ h_sender (hdr m) = GDir n /\
     cert_for e m c /\ cn_notation e n <> EmptyString /\
     removeprefix "CN=" s = removeprefix "CN=" (cn_notation e n)).
Proof.
  intros P M. unfold validate_senderkid.
  rewrite (proj2 (protection_present_iff m false true)) by auto. cbn [bind negb].
  assert (E : exists p, get_protection_type m = Ok p /\ is_mac_or_kem p = true).
  { destruct M as [M|M]; unfold get_protection_type; rewrite M; eauto. }
  destruct E as [p [-> K]]. split.
  - intros H. inv_ok. injection H2 as <-. rewrite K in H. unfold verify_senderkid_for_mac in H.
    destruct (h_sender (hdr m)) as [n| | |]; try discriminate. inv_ok.
    match goal with A : h_kid _ = Some ?a, B : h_kid _ = Some ?b |- _ => assert (a = b) by congruence; subst b end.
    destruct (e_utf8 e x2) as [s|] eqn:U; [|discriminate].
    destruct (String.eqb (cn_notation e n) "") eqn:N; [discriminate|].
    destruct (String.eqb (removeprefix _ _) _) eqn:R; [|discriminate].
    apply String.eqb_eq in R. apply String.eqb_neq in N.
    exists x2, s, n, x0. apply first_cert_iff in H1. auto 10.
  - intros [kid [s [n [c [Ek [U [S [C [N R]]]]]]]]]. apply first_cert_iff in C.
    rewrite Ek, C. cbn [is_value guard bind octets]. rewrite K.
    unfold verify_senderkid_for_mac. rewrite S, Ek. cbn [octets bind]. rewrite U.
    apply String.eqb_neq in N. rewrite N. apply String.eqb_eq in R. rewrite R. reflexivity.
Qed.

Lemma unprotected_skip e m allow :
  unprotected m ->
  check_sender_cmp_protection e m false allow = Ok tt /\ validate_senderkid e m None false allow = Ok tt.
Proof.
  intros U. unfold check_sender_cmp_protection, validate_senderkid.
  rewrite (proj2 (protection_present_iff m false false)) by auto.
  destruct U as [_ ->]. split; reflexivity.
Qed.

(** ** The whole header *)

Theorem header_sound e response request protection interval allow :
  validate_pkimessage_header e response request protection interval allow = Ok tt <->
  (h_pvno (hdr response) = 2 \/ h_pvno (hdr response) = 3) /\
  (protected response \/ (protection = false /\ unprotected response)) /\
  check_sender_cmp_protection e response protection allow = Ok tt /\
  validate_senderkid e response None protection allow = Ok tt /\
  check_generalinfo e response = Ok tt /\
  check_message_time_field e response interval
    (match request with Some r => h_time (hdr r) | None => None end) = Ok tt /\
  (forall q, request = Some q -> validate_sender_and_recipient response q false = Ok tt).
Proof.
  unfold validate_pkimessage_header. split.
  - intros H. inv_ok. split.
    { apply orb_prop in H0. rewrite !Z.eqb_eq in H0. exact H0. }
    split.
    { apply protection_present_iff in H1. tauto. }
    repeat split; try assumption. intros q ->. exact H.
  - intros [V [P [A [B [C [D E]]]]]].
    assert (((h_pvno (hdr response) =? 2) || (h_pvno (hdr response) =? 3)) = true) as ->.
    { apply orb_true_intro. rewrite !Z.eqb_eq. exact V. }
    cbn [guard bind].
    assert (X : exists b, check_is_protection_present response protection = Ok b).
    { destruct P as [P|[-> P]]; eexists; apply protection_present_iff; auto. }
    destruct X as [b ->]. cbn [bind]. rewrite A, B, C, D. cbn [bind].
    destruct request as [q|]; [apply E|]; reflexivity.
Qed.

Theorem wrong_integrity_iff m :
  validate_wrong_integrity m = Ok tt <->
  (body m = Bccr \/ body m = Bkur \/ body m = Brr \/ body m = Bnested ->
   exists p, h_palg (hdr m) = Some p /\ p <> PUnknown /\ p <> PMac /\
     (body m = Bccr -> p <> PDh /\ p <> PKem)).
Proof.
  unfold validate_wrong_integrity, get_protection_type.
  assert (N : forall x, (body m = Bccr \/ body m = Bkur \/ body m = Brr \/ body m = Bnested -> x) ->
     (body m = Bccr \/ body m = Bkur \/ body m = Brr \/ body m = Bnested) \/ True) by auto.
  destruct (h_palg (hdr m)) as [p|].
  - destruct (body m), p; cbn; split; intros H; try reflexivity; try discriminate;
      try (intros [F|[F|[F|F]]]; discriminate);
      try (intros _; eexists; repeat split; try reflexivity; intros; discriminate);
      exfalso; (destruct H as [p' [E [A [B C]]]]; [auto 10|]); injection E as <-; try congruence;
      destruct (C eq_refl); congruence.
  - destruct (body m); cbn; split; intros H; try reflexivity; try discriminate;
      try (intros [F|[F|[F|F]]]; discriminate);
      exfalso; (destruct H as [p' [E _]]; [auto 10|]); discriminate.
Qed.
