(** Proofs: bits, names and comma-separated lists. *)
From Coq Require Import String Ascii NArith DecimalString DecimalNat.
From Verif Require Import Prelude PreludeFacts PyStr PyStrProofs BitModel BitSpec.
Local Notation length := List.length.
Local Open Scope string_scope.

(** ** Bits *)
Lemma count_zero x : count_set x = O <-> forall j, ~ is_set x j.
Proof.
  unfold count_set, is_set. induction x as [|b x IH]; simpl.
  - split; [intros _ j; destruct j; discriminate|reflexivity].
  - destruct b; simpl.
    + split; [discriminate|]. intros H. exfalso. apply (H O). reflexivity.
    + rewrite IH. split.
      * intros H j. destruct j; simpl; [discriminate|apply H].
      * intros H j. apply (H (S j)).
Qed.
Lemma count_one x i : is_set x i -> (count_set x = 1 <-> forall j, is_set x j -> j = i)%nat.
Proof.
  revert i. induction x as [|b x IH]; intros i Hi; [destruct i; discriminate|].
  destruct i as [|i].
  - unfold is_set in Hi. simpl in Hi. injection Hi as ->. change (count_set (true :: x)) with (S (count_set x)). split.
    + intros H. assert (count_set x = 0)%nat as H0 by lia. rewrite count_zero in H0. intros [|j] Hj; [reflexivity|].
      exfalso. apply (H0 j Hj).
    + intros H. f_equal. apply count_zero. intros j Hj. specialize (H (S j) Hj). discriminate.
  - change (is_set x i) in Hi. destruct b.
    + change (count_set (true :: x)) with (S (count_set x)). split.
      * intros H. assert (count_set x = 0)%nat as H0 by lia. rewrite count_zero in H0. exfalso. exact (H0 i Hi).
      * intros H. specialize (H O eq_refl). discriminate.
    + change (count_set (false :: x)) with (count_set x). rewrite (IH i Hi). split.
      * intros H [|j] Hj; [discriminate|]. f_equal. apply H. exact Hj.
      * intros H j Hj. specialize (H (S j) Hj). lia.
Qed.

Lemma py_nth_nat x i : py_nth x (Z.of_nat i) = nth_error x i.
Proof.
  unfold py_nth. destruct (0 <=? Z.of_nat i)%Z eqn:E; [|apply Z.leb_gt in E; lia]. rewrite Nat2Z.id. reflexivity.
Qed.

Lemma bit_set_spec x i (excl : bool) :
  is_bit_set_in_bitstring x (Z.of_nat i) excl = true <-> (if excl then only_set x i else is_set x i).
Proof.
  unfold is_bit_set_in_bitstring. rewrite py_nth_nat. unfold only_set.
  destruct (nth_error x i) as [[]|] eqn:E.
  - destruct excl; [|split; [intros _; exact E|reflexivity]]. rewrite Nat.eqb_eq, (count_one x i E).
    split; [intros H; split; [exact E|exact H]|intros [_ H]; exact H].
  - split; [discriminate|]. unfold is_set. rewrite E. destruct excl; [intros [H _]|intros H]; discriminate.
  - split; [discriminate|]. unfold is_set. rewrite E. destruct excl; [intros [H _]|intros H]; discriminate.
Qed.

Lemma either_spec x l (excl : bool) :
  is_either_bit_set x (map Z.of_nat l) excl = true
  <-> exists i, In i l /\ (if excl then only_set x i else is_set x i).
Proof.
  unfold is_either_bit_set. rewrite existsb_exists. split.
  - intros (z & Hz & H). apply in_map_iff in Hz. destruct Hz as (i & <- & Hi). apply bit_set_spec in H. eauto.
  - intros (i & Hi & H). exists (Z.of_nat i). split; [apply in_map, Hi|apply bit_set_spec, H].
Qed.

(** ** Names of the set bits *)
Lemma set_names_eq names x : set_names_from names x = names_set names x.
Proof.
  unfold names_set. revert x. induction names as [|n names IH]; intros [|b x]; simpl; try reflexivity.
  rewrite IH. destruct b; reflexivity.
Qed.
Lemma names_binary names x : set_names_from names (as_binary x) = names_set names x.
Proof.
  rewrite set_names_eq. destruct x as [|b x]; [|reflexivity]. unfold names_set. destruct names as [|n [|m r]]; reflexivity.
Qed.
Lemma get_names_eq names x :
  get_set_bitstring_names {| b_names := names; b_val := Some x |} = Ok (String.concat ", " (names_set names x)).
Proof. unfold get_set_bitstring_names. cbn [b_val b_names]. rewrite names_binary. reflexivity. Qed.

Lemma names_set_cons n names b x :
  names_set (n :: names) (b :: x) = (if b then n :: names_set names x else names_set names x).
Proof. unfold names_set. simpl. destruct b; reflexivity. Qed.

Lemma names_set_In names x n : In n (names_set names x) <-> named_set names x n.
Proof.
  revert x. induction names as [|m names IH]; intros x.
  - split; [intros []|]. intros (i & H & _). destruct i; discriminate.
  - destruct x as [|b x].
    + split; [intros []|]. intros (i & _ & H). destruct i; discriminate.
    + rewrite names_set_cons. split.
      * intros H. assert ((b = true /\ m = n) \/ In n (names_set names x)) as [[-> ->]|H'].
        { destruct b; [destruct H as [->|H]; auto|auto]. }
        -- exists O. split; reflexivity.
        -- apply IH in H'. destruct H' as (i & H1 & H2). exists (S i). split; assumption.
      * intros ([|i] & H1 & H2).
        -- unfold is_set in H2. simpl in H1, H2. injection H1 as ->. injection H2 as ->. left. reflexivity.
        -- assert (In n (names_set names x)) as H by (apply IH; exists i; split; assumption).
           destruct b; [right|]; exact H.
Qed.
Lemma names_set_all names x : (forall i, (i < length names)%nat -> is_set x i) -> names_set names x = names.
Proof.
  revert x. induction names as [|n names IH]; intros x H; [reflexivity|].
  destruct x as [|b x]; [specialize (H O ltac:(simpl; lia)); discriminate|].
  rewrite names_set_cons. pose proof (H O ltac:(simpl; lia)) as H0. unfold is_set in H0. simpl in H0. injection H0 as ->.
  f_equal. apply IH. intros i Hi. apply (H (S i)). simpl. lia.
Qed.
Lemma names_set_length names x : (length (names_set names x) <= length names)%nat.
Proof.
  revert x. induction names as [|n names IH]; intros [|b x]; try (simpl; lia). rewrite names_set_cons.
  specialize (IH x). destruct b; simpl; lia.
Qed.
Lemma names_set_all_inv names x i : names_set names x = names -> (i < length names)%nat -> is_set x i.
Proof.
  revert x i. induction names as [|n names IH]; intros x i H Hi; [simpl in Hi; lia|].
  destruct x as [|b x]; [discriminate|]. rewrite names_set_cons in H. destruct b.
  - destruct i; [reflexivity|]. apply (IH x i); [congruence|simpl in Hi; lia].
  - pose proof (names_set_length names x) as L. rewrite H in L. simpl in L. lia.
Qed.
Lemma names_set_nodup names x : NoDup names -> NoDup (names_set names x).
Proof.
  intros H. revert x. induction H as [|n names Hn Hd IH]; intros [|b x]; try constructor. rewrite names_set_cons.
  destruct b; [|apply IH]. constructor; [|apply IH]. intros Hin. apply names_set_In in Hin. destruct Hin as (i & Hi & _).
  apply nth_error_In in Hi. contradiction.
Qed.

(** ** Names *)
Lemma letter_not c : is_letter c = true -> is_space c = false /\ is_digit c = false /\ Ascii.eqb c "," = false.
Proof.
  destruct c as [[] [] [] [] [] [] [] []]; vm_compute; intros H; try discriminate H; auto.
Qed.
Lemma digit_not c : is_digit c = true -> is_space c = false /\ Ascii.eqb c "," = false.
Proof.
  destruct c as [[] [] [] [] [] [] [] []]; vm_compute; intros H; try discriminate H; auto.
Qed.
Lemma blank_space c : is_blank c = true -> is_space c = true.
Proof. destruct c as [[] [] [] [] [] [] [] []]; vm_compute; intros H; try discriminate H; reflexivity. Qed.
Lemma space_not_comma c : is_space c = true -> Ascii.eqb c "," = false.
Proof. destruct c as [[] [] [] [] [] [] [] []]; vm_compute; intros H; try discriminate H; reflexivity. Qed.

Lemma name_chars n c : is_name n = true -> In_chars c n -> is_letter c = true \/ is_digit c = true.
Proof.
  destruct n as [|d r]; [discriminate|]. simpl. rewrite andb_true_iff. intros [H1 H2] [->|H]; [left; exact H1|].
  rewrite all_chars_spec in H2. specialize (H2 c H). apply orb_true_iff in H2. exact H2.
Qed.
Lemma name_no_space n : is_name n = true -> all_chars (fun c => negb (is_space c)) n = true.
Proof.
  intros H. apply all_chars_spec. intros c Hc. apply negb_true_iff.
  destruct (name_chars n c H Hc) as [L|D]; [apply letter_not, L|apply digit_not, D].
Qed.
Lemma name_no_blank n : is_name n = true -> all_chars (fun c => negb (is_blank c)) n = true.
Proof.
  intros H. apply name_no_space in H. rewrite all_chars_spec in *. intros c Hc. specialize (H c Hc).
  apply negb_true_iff in H. apply negb_true_iff. destruct (is_blank c) eqn:E; [|reflexivity].
  rewrite (blank_space c E) in H. discriminate.
Qed.
Lemma name_no_comma n : is_name n = true -> no_char "," n = true.
Proof.
  intros H. apply all_chars_spec. intros c Hc. apply negb_true_iff.
  destruct (name_chars n c H Hc) as [L|D]; [apply letter_not, L|apply digit_not, D].
Qed.
Lemma space_no_comma a : all_chars is_space a = true -> no_char "," a = true.
Proof.
  intros H. unfold no_char. rewrite all_chars_spec in *. intros c Hc. apply negb_true_iff, space_not_comma, H, Hc.
Qed.
Lemma name_letter n : is_name n = true -> exists c, In_chars c n /\ is_letter c = true.
Proof.
  destruct n as [|c r]; [discriminate|]. simpl. rewrite andb_true_iff. intros [H _]. exists c. split; [left; reflexivity|exact H].
Qed.

(** ** Lists of names *)
Definition within (p : ascii -> bool) : Prop := forall c, p c = true -> is_space c = true.
Lemma all_within p a : within p -> all_chars p a = true -> all_chars is_space a = true.
Proof. intros W H. rewrite all_chars_spec in *. intros c Hc. apply W, H, Hc. Qed.

Lemma padded_no_comma p q n : within p -> is_name n = true -> padded p q n -> no_char "," q = true.
Proof.
  intros W Hn (a & b & Ha & Hb & ->). unfold no_char. rewrite !all_chars_app.
  pose proof (space_no_comma a (all_within p a W Ha)) as H1. pose proof (space_no_comma b (all_within p b W Hb)) as H2.
  pose proof (name_no_comma n Hn) as H3. unfold no_char in *. rewrite H1, H2, H3. reflexivity.
Qed.
Lemma padded_strip p q n : within p -> is_name n = true -> padded p q n -> strip is_space q = n.
Proof.
  intros W Hn (a & b & Ha & Hb & ->). apply strip_pad; [eapply all_within; eauto|eapply all_within; eauto|apply name_no_space, Hn].
Qed.
Lemma padded_self p n : padded p n n.
Proof. exists "", "". split; [reflexivity|]. split; [reflexivity|]. simpl. rewrite app_nil_r_s. reflexivity. Qed.

Lemma parts_no_comma p parts ns :
  within p -> Forall (fun n => is_name n = true) ns -> Forall2 (padded p) parts ns ->
  Forall (fun s => no_char "," s = true) parts.
Proof.
  intros W Hn H. induction H; [constructor|]. inversion Hn; subst. constructor; [eapply padded_no_comma; eauto|auto].
Qed.
Lemma split_parts p parts ns :
  within p -> ns <> [] -> Forall (fun n => is_name n = true) ns -> Forall2 (padded p) parts ns ->
  split "," (String.concat "," parts) = parts.
Proof.
  intros W Hne Hn H. apply split_concat; [|eapply parts_no_comma; eauto].
  intros ->. inversion H; subst. contradiction.
Qed.
Lemma strip_parts p parts ns :
  within p -> Forall (fun n => is_name n = true) ns -> Forall2 (padded p) parts ns -> map (strip is_space) parts = ns.
Proof.
  intros W Hn H. induction H; [reflexivity|]. inversion Hn; subst. simpl. f_equal; [eapply padded_strip; eauto|auto].
Qed.

Lemma name_no r n : within r -> is_name n = true -> all_chars (fun c => negb (r c)) n = true.
Proof.
  intros W H. apply name_no_space in H. rewrite all_chars_spec in *. intros c Hc. specialize (H c Hc).
  apply negb_true_iff in H. apply negb_true_iff. destruct (r c) eqn:E; [|reflexivity]. rewrite (W c E) in H. discriminate.
Qed.
Lemma lstrip_padded r p q n s : within r ->
  is_name n = true -> padded p q n -> exists q', padded p q' n /\ lstrip r (q ++ s) = q' ++ s.
Proof.
  intros W Hn (a & b & Ha & Hb & ->). induction a as [|c a IH].
  - destruct n as [|d u]; [discriminate|]. exists ("" ++ String d u ++ b). split; [exists "", b; auto|].
    simpl. pose proof (name_no r _ W Hn) as Hd. simpl in Hd. apply andb_true_iff in Hd. destruct Hd as [Hd _].
    apply negb_true_iff in Hd. rewrite Hd. reflexivity.
  - pose proof Ha as Ha'. simpl in Ha. apply andb_true_iff in Ha. destruct Ha as [Hc Ha]. simpl.
    destruct (r c) eqn:E.
    + destruct (IH Ha) as (q' & H1 & H2). exists q'. split; [exact H1|]. exact H2.
    + exists (String c a ++ n ++ b). split; [exists (String c a), b; auto|]. reflexivity.
Qed.
Lemma rstrip_keeps r p b : all_chars p b = true -> all_chars p (rstrip r b) = true.
Proof. intros H. rewrite all_chars_spec in *. intros c Hc. apply H. eapply In_rstrip_inv, Hc. Qed.
Lemma rstrip_padded r p q n : within r -> is_name n = true -> padded p q n ->
  padded p (rstrip r q) n /\ rstrip r q <> "".
Proof.
  intros W Hn (a & b & Ha & Hb & ->). rewrite rstrip_app, rstrip_app, (rstrip_clean r n (name_no r n W Hn)).
  destruct n as [|d u]; [discriminate|].
  destruct (rstrip r b) as [|e t] eqn:E.
  - split; [exists a, ""; rewrite app_nil_r_s; auto|destruct a; discriminate].
  - assert (all_chars p (String e t) = true) as Ht by (rewrite <- E; apply rstrip_keeps, Hb).
    split; [exists a, (String e t); auto|destruct a; discriminate].
Qed.
Lemma rstrip_ne_app p s t : rstrip p t <> "" -> rstrip p (s ++ t) = s ++ rstrip p t.
Proof. intros H. rewrite rstrip_app. destruct (rstrip p t); [contradiction|reflexivity]. Qed.
Lemma rstrip_parts r p parts ns : within r ->
  ns <> [] -> Forall (fun n => is_name n = true) ns -> Forall2 (padded p) parts ns ->
  exists parts', rstrip r (String.concat "," parts) = String.concat "," parts'
                 /\ Forall2 (padded p) parts' ns /\ rstrip r (String.concat "," parts) <> "".
Proof.
  intros W Hne Hn H. induction H as [|q n parts ns Hq H IH]; [contradiction|]. inversion Hn as [|? ? Hn1 Hn2]; subst.
  destruct parts as [|q2 parts].
  - inversion H; subst. destruct (rstrip_padded r p q n W Hn1 Hq) as [H1 H2]. exists [rstrip r q].
    split; [reflexivity|]. split; [constructor; [exact H1|constructor]|exact H2].
  - assert (ns <> []) as Hne' by (inversion H; subst; discriminate).
    destruct (IH Hne' Hn2) as (parts' & E & F & Hn0). rewrite concat_cons, <- app_assoc_s.
    rewrite rstrip_ne_app by exact Hn0. exists (q :: parts'). split; [|split].
    + rewrite E. destruct parts' as [|x y]; [inversion F; subst; contradiction|]. rewrite concat_cons, app_assoc_s. reflexivity.
    + constructor; assumption.
    + destruct q; simpl; [destruct (String.concat "," (q2 :: parts)); discriminate|discriminate].
Qed.

Lemma strip_lists_gen r p s ns : within r ->
  Forall (fun n => is_name n = true) ns -> lists p s ns -> lists p (strip r s) ns.
Proof.
  intros W Hn (Hne & parts & -> & H). split; [exact Hne|]. unfold strip.
  destruct H as [|q n parts ns Hq H]; [contradiction|]. inversion Hn as [|? ? Hn1 Hn2]; subst.
  assert (exists q', padded p q' n /\ lstrip r (String.concat "," (q :: parts)) = String.concat "," (q' :: parts))
    as (q' & Hq' & E).
  { destruct parts as [|q2 parts].
    - destruct (lstrip_padded r p q n "" W Hn1 Hq) as (q' & H1 & H2). rewrite !app_nil_r_s in H2. exists q'. split; [exact H1|exact H2].
    - destruct (lstrip_padded r p q n ("," ++ String.concat "," (q2 :: parts)) W Hn1 Hq) as (q' & H1 & H2). exists q'.
      split; [exact H1|]. rewrite !concat_cons. exact H2. }
  rewrite E. destruct (rstrip_parts r p (q' :: parts) (n :: ns) W) as (parts' & E' & F & _); [discriminate|exact Hn|constructor; assumption|].
  exists parts'. split; [exact E'|exact F].
Qed.
Lemma strip_lists p s ns :
  Forall (fun n => is_name n = true) ns -> lists p s ns -> lists p (strip is_blank s) ns.
Proof. apply strip_lists_gen. exact blank_space. Qed.

Lemma lists_weaken p s ns : within p -> lists p s ns -> lists is_space s ns.
Proof.
  intros W (H & parts & E & F). split; [exact H|]. exists parts. split; [exact E|].
  clear E H. induction F as [|q n parts ns (a & b & Ha & Hb & ->) F IH]; constructor; [|exact IH].
  exists a, b. split; [exact (all_within p a W Ha)|]. split; [exact (all_within p b W Hb)|reflexivity].
Qed.
Lemma within_space : within is_space. Proof. intros c H; exact H. Qed.
Lemma within_blank : within is_blank. Proof. exact blank_space. Qed.

Lemma lists_letter s ns : Forall (fun n => is_name n = true) ns -> lists is_space s ns ->
  exists c, In_chars c s /\ is_letter c = true.
Proof.
  intros Hn (Hne & parts & -> & H). destruct H as [|q n parts ns (a & b & Ha & Hb & ->) H]; [contradiction|].
  inversion Hn; subst. destruct (name_letter n H2) as (c & Hc & L). exists c. split; [|exact L].
  eapply In_concat; [left; reflexivity|]. rewrite !In_chars_app. auto.
Qed.
Lemma lists_not_digits s ns : Forall (fun n => is_name n = true) ns -> lists is_space s ns ->
  isdigit (strip is_blank (remove "," s)) = false.
Proof.
  intros Hn H. destruct (lists_letter s ns Hn H) as (c & Hc & L). destruct (letter_not c L) as (H1 & H2 & H3).
  apply (isdigit_false c); [exact H2|]. apply In_strip.
  - destruct (is_blank c) eqn:E; [|reflexivity]. rewrite (blank_space c E) in H1. discriminate.
  - apply In_remove; [|exact Hc]. intros ->. discriminate H3.
Qed.
Lemma lists_not_isdigit s ns : Forall (fun n => is_name n = true) ns -> lists is_space s ns -> isdigit s = false.
Proof.
  intros Hn H. destruct (lists_letter s ns Hn H) as (c & Hc & L). destruct (letter_not c L) as (H1 & H2 & H3).
  apply (isdigit_false c); assumption.
Qed.

(** The indices of listed names. *)
Lemma name_index_ok names n : In n names -> exists i, name_index names n = Ok (Z.of_nat i) /\ nth_error names i = Some n.
Proof.
  intros H. unfold name_index. destruct (str_index n names) as [i|] eqn:E.
  - exists i. split; [reflexivity|]. apply str_index_some, E.
  - apply str_index_none in E. contradiction.
Qed.
Lemma indices_ok names parts ns :
  Forall (fun n => is_name n = true) ns -> (forall n, In n ns -> In n names) -> Forall2 (padded is_space) parts ns ->
  exists l, mapM (fun v => name_index names (strip is_space v)) parts = Ok (map Z.of_nat l)
            /\ Forall2 (fun n i => nth_error names i = Some n) ns l.
Proof.
  intros Hn Hin H. induction H as [|q n parts ns Hq H IH].
  - exists []. split; [reflexivity|constructor].
  - inversion Hn as [|? ? Hn1 Hn2]; subst. destruct (IH Hn2) as (l & E & F); [intros m Hm; apply Hin; right; exact Hm|].
    destruct (name_index_ok names n) as (i & Ei & Fi); [apply Hin; left; reflexivity|].
    exists (i :: l). split; [|constructor; assumption]. cbn [mapM]. rewrite (padded_strip is_space q n within_space Hn1 Hq), Ei.
    cbn [bind]. rewrite E. reflexivity.
Qed.

Lemma either_names names x ns l (excl : bool) :
  NoDup names -> Forall2 (fun n i => nth_error names i = Some n) ns l ->
  (is_either_bit_set x (map Z.of_nat l) excl = true
   <-> exists n, In n ns /\ (if excl then only_named names x n else named_set names x n)).
Proof.
  intros Hd F. rewrite either_spec. split.
  - intros (i & Hi & H). assert (exists n, In n ns /\ nth_error names i = Some n) as (n & Hn & E).
    { clear H. induction F as [|m j ns l E F IH]; [destruct Hi|]. destruct Hi as [->|Hi]; [exists m; split; [left; reflexivity|exact E]|].
      destruct (IH Hi) as (n & H1 & H2). exists n. split; [right; exact H1|exact H2]. }
    exists n. split; [exact Hn|]. destruct excl; exists i; auto.
  - intros (n & Hn & H). assert (exists i, In i l /\ nth_error names i = Some n) as (i & Hi & E).
    { clear H. induction F as [|m j ns l E F IH]; [destruct Hn|]. destruct Hn as [->|Hn]; [exists j; split; [left; reflexivity|exact E]|].
      destruct (IH Hn) as (i & H1 & H2). exists i. split; [right; exact H1|exact H2]. }
    exists i. split; [exact Hi|]. destruct excl; destruct H as (j & Ej & Hj); assert (j = i) as ->;
      try exact Hj; apply (proj1 (NoDup_nth_error names) Hd); try congruence; apply nth_error_Some; congruence.
Qed.

(** ** [is_bit_set] *)
Lemma names_case names x s ns (excl : bool) :
  good_names names -> lists is_space s ns -> (forall n, In n ns -> In n names) ->
  exists l,
    Forall2 (fun n i => nth_error names i = Some n) ns l /\
    is_bit_set {| b_names := names; b_val := Some x |} (AStr s) excl =
    let all_set := split2 "," " " (String.concat ", " (names_set names x)) in
    if strs_eqb all_set (split "," (strip is_blank s)) then Ok true
    else if strs_eqb all_set names && excl then Err EValueError
    else Ok (is_either_bit_set x (map Z.of_nat l) excl).
Proof.
  intros (Hd & Hg) Hl Hin.
  assert (Forall (fun n => is_name n = true) ns) as Hn.
  { apply Forall_forall. intros n H. rewrite Forall_forall in Hg. auto. }
  destruct (strip_lists is_space s ns Hn Hl) as (Hne & parts & E & F).
  destruct (indices_ok names parts ns Hn Hin F) as (l & El & Fl).
  exists l. split; [exact Fl|]. unfold is_bit_set. cbn [b_val].
  rewrite (lists_not_digits s ns Hn Hl). cbv zeta. rewrite get_names_eq. cbn [bind b_names].
  rewrite E, (split_parts is_space parts ns within_space Hne Hn F), El. cbn [bind].
  destruct (strs_eqb _ parts); destruct excl; reflexivity.
Qed.

Lemma split_names_set names x : Forall (fun n => is_name n = true) names -> names_set names x <> [] ->
  split2 "," " " (String.concat ", " (names_set names x)) = names_set names x.
Proof.
  intros Hg Hne. apply split2_concat; [exact Hne|]. apply Forall_forall. intros n Hn. apply names_set_In in Hn.
  destruct Hn as (i & Hi & _). apply nth_error_In in Hi. rewrite Forall_forall in Hg. apply name_no_comma, Hg, Hi.
Qed.

(** What the comparison of the set names says. *)
Lemma all_set_eq names x l :
  Forall (fun n => is_name n = true) names -> Forall (fun n => n <> "") l ->
  strs_eqb (split2 "," " " (String.concat ", " (names_set names x))) l = true -> names_set names x = l.
Proof.
  intros Hg Hl H. apply strs_eqb_eq in H. destruct (names_set names x) as [|a r] eqn:E.
  - simpl in H. subst l. inversion Hl; congruence.
  - rewrite <- E in *. rewrite split_names_set in H by (rewrite ?E; auto; discriminate). exact H.
Qed.
Lemma all_set_eq' names x l :
  Forall (fun n => is_name n = true) names -> l <> [] -> names_set names x = l ->
  strs_eqb (split2 "," " " (String.concat ", " (names_set names x))) l = true.
Proof. intros Hg Hl H. apply strs_eqb_eq. rewrite split_names_set; [exact H|exact Hg|congruence]. Qed.

Lemma padded_ne q n : is_name n = true -> padded is_space q n -> q <> "".
Proof. intros Hn (a & b & _ & _ & ->). destruct n; [discriminate|]. destruct a; discriminate. Qed.
