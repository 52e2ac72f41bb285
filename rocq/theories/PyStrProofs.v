(** Facts about Python's string functions of PyStr. *)
From Coq Require Import String Ascii NArith.
From Verif Require Import Prelude PreludeFacts PyStr.
Open Scope Z_scope.
Local Notation length := List.length.
Local Open Scope string_scope.

(** ** Characters of a string *)
Fixpoint In_chars (c : ascii) (s : string) : Prop :=
  match s with EmptyString => False | String d r => d = c \/ In_chars c r end.

Lemma all_chars_spec p s : all_chars p s = true <-> (forall c, In_chars c s -> p c = true).
Proof.
  induction s; simpl; [split; [intros _ c []|reflexivity]|].
  rewrite andb_true_iff, IHs. split.
  - intros [H1 H2] c [->|H]; auto.
  - intros H. split; [apply H; left; reflexivity|intros c Hc; apply H; right; exact Hc].
Qed.
Lemma all_chars_app p s t : all_chars p (s ++ t) = all_chars p s && all_chars p t.
Proof. induction s; simpl; [reflexivity|]. rewrite IHs, andb_assoc. reflexivity. Qed.
Lemma In_chars_app c s t : In_chars c (s ++ t) <-> In_chars c s \/ In_chars c t.
Proof. induction s; simpl; [tauto|rewrite IHs; tauto]. Qed.
Lemma has_char_spec c s : has_char c s = true <-> In_chars c s.
Proof.
  unfold has_char. rewrite negb_true_iff. split.
  - induction s as [|a s IHs]; simpl; [discriminate|]. rewrite andb_false_iff, negb_false_iff.
    intros [H|H]; [apply Ascii.eqb_eq in H; left; exact H|right; auto].
  - intros H. apply Bool.not_true_is_false. intros A. rewrite all_chars_spec in A. specialize (A c H).
    rewrite Ascii.eqb_refl in A. discriminate.
Qed.
Lemma app_nil_r_s s : s ++ "" = s. Proof. induction s; simpl; congruence. Qed.
Lemma app_assoc_s s t u : (s ++ t) ++ u = s ++ (t ++ u). Proof. induction s; simpl; congruence. Qed.

(** ** Removing characters at the ends *)
Lemma lstrip_pad p a s : all_chars p a = true -> lstrip p (a ++ s) = lstrip p s.
Proof.
  induction a; simpl; intros H; [reflexivity|]. apply andb_true_iff in H. destruct H as [-> H]. auto.
Qed.
Lemma lstrip_head p c r : p c = false -> lstrip p (String c r) = String c r.
Proof. intros H. simpl. rewrite H. reflexivity. Qed.
Lemma rstrip_all p a : all_chars p a = true -> rstrip p a = "".
Proof.
  induction a; simpl; intros H; [reflexivity|]. apply andb_true_iff in H. destruct H as [H1 H2]. rewrite IHa by exact H2.
  rewrite H1. reflexivity.
Qed.
Lemma rstrip_app p s t : rstrip p (s ++ t) = match rstrip p t with "" => rstrip p s | u => s ++ u end.
Proof.
  induction s; simpl; [destruct (rstrip p t); reflexivity|]. rewrite IHs. destruct (rstrip p t); [reflexivity|].
  destruct s; reflexivity.
Qed.
Lemma rstrip_clean p s : all_chars (fun c => negb (p c)) s = true -> rstrip p s = s.
Proof.
  induction s; simpl; intros H; [reflexivity|]. apply andb_true_iff in H. destruct H as [H1 H2].
  rewrite IHs by exact H2. apply negb_true_iff in H1. rewrite H1. destruct s; reflexivity.
Qed.
Lemma strip_pad p a n b :
  all_chars p a = true -> all_chars p b = true -> all_chars (fun c => negb (p c)) n = true -> strip p (a ++ n ++ b) = n.
Proof.
  intros Ha Hb Hn. unfold strip. rewrite lstrip_pad by exact Ha. destruct n as [|c n].
  - simpl. rewrite <- (app_nil_r_s b), lstrip_pad by exact Hb. reflexivity.
  - simpl ((String c n) ++ b). pose proof Hn as Hn'. simpl in Hn'. apply andb_true_iff in Hn'. destruct Hn' as [Hc _].
    apply negb_true_iff in Hc. rewrite lstrip_head by exact Hc. change (String c (n ++ b)) with (String c n ++ b).
    rewrite rstrip_app, (rstrip_all p b Hb). apply rstrip_clean, Hn.
Qed.
Lemma strip_clean p n : all_chars (fun c => negb (p c)) n = true -> strip p n = n.
Proof. intros H. rewrite <- (strip_pad p "" n "" eq_refl eq_refl H) at 2. simpl. rewrite app_nil_r_s. reflexivity. Qed.

Lemma In_lstrip p c s : p c = false -> In_chars c s -> In_chars c (lstrip p s).
Proof.
  induction s as [|d s IHs]; simpl; [auto|]. intros Hp [->|H].
  - rewrite Hp. left. reflexivity.
  - destruct (p d); [auto|right; exact H].
Qed.
Lemma In_rstrip p c s : p c = false -> In_chars c s -> In_chars c (rstrip p s).
Proof.
  induction s as [|d s IHs]; simpl; [auto|]. intros Hp [->|H].
  - destruct (rstrip p s); [rewrite Hp|]; left; reflexivity.
  - specialize (IHs Hp H). destruct (rstrip p s); [destruct IHs|right; exact IHs].
Qed.
Lemma In_strip p c s : p c = false -> In_chars c s -> In_chars c (strip p s).
Proof. intros H1 H2. apply In_rstrip, In_lstrip; assumption. Qed.
Lemma In_lstrip_inv p c s : In_chars c (lstrip p s) -> In_chars c s.
Proof. induction s as [|d s IHs]; simpl; [auto|]. destruct (p d); [auto|exact (fun h => h)]. Qed.
Lemma In_rstrip_inv p c s : In_chars c (rstrip p s) -> In_chars c s.
Proof.
  induction s as [|d s IHs]; simpl; [auto|]. destruct (rstrip p s) eqn:E.
  - destruct (p d); simpl; tauto.
  - simpl. intros [H|H]; [left; exact H|right; apply IHs; exact H].
Qed.
Lemma In_strip_inv p c s : In_chars c (strip p s) -> In_chars c s.
Proof. intros H. apply In_rstrip_inv in H. apply In_lstrip_inv in H. exact H. Qed.
Lemma In_remove c d s : c <> d -> In_chars c s -> In_chars c (remove d s).
Proof.
  induction s as [|a s IHs]; simpl; [auto|]. intros Hne [->|H].
  - destruct (Ascii.eqb_spec c d); [contradiction|left; reflexivity].
  - destruct (Ascii.eqb a d); [auto|right; auto].
Qed.
Lemma isdigit_false c s : is_digit c = false -> In_chars c s -> isdigit s = false.
Proof.
  intros H1 H2. destruct s; [destruct H2|]. unfold isdigit. apply Bool.not_true_is_false. intros A.
  rewrite all_chars_spec in A. rewrite (A c H2) in H1. discriminate.
Qed.

(** ** Splitting and joining *)
Definition no_char (d : ascii) (s : string) : bool := all_chars (fun c => negb (Ascii.eqb c d)) s.

Lemma split_no d s : no_char d s = true -> split d s = [s].
Proof.
  induction s; simpl; intros H; [reflexivity|]. apply andb_true_iff in H. destruct H as [H1 H2].
  apply negb_true_iff in H1. rewrite H1, (IHs H2). reflexivity.
Qed.
Lemma split_app d s t : no_char d s = true -> split d (s ++ String d t) = s :: split d t.
Proof.
  induction s; simpl; intros H; [rewrite Ascii.eqb_refl; reflexivity|]. apply andb_true_iff in H. destruct H as [H1 H2].
  apply negb_true_iff in H1. rewrite H1, (IHs H2). reflexivity.
Qed.
Lemma concat_cons sep a b l : String.concat sep (a :: b :: l) = a ++ sep ++ String.concat sep (b :: l).
Proof. reflexivity. Qed.
Lemma split_concat d l :
  l <> [] -> Forall (fun s => no_char d s = true) l -> split d (String.concat (String d "") l) = l.
Proof.
  intros Hne H. induction H as [|a l Ha Hl IH]; [contradiction|]. destruct l as [|b l].
  - apply split_no, Ha.
  - rewrite concat_cons. change (String d "" ++ String.concat (String d "") (b :: l))
      with (String d (String.concat (String d "") (b :: l))).
    rewrite split_app by exact Ha. rewrite IH by discriminate. reflexivity.
Qed.

Lemma split2_nonempty d e s : split2 d e s <> [].
Proof.
  destruct s; simpl; [discriminate|]. destruct s; [discriminate|].
  destruct (Ascii.eqb a d && Ascii.eqb a0 e); [discriminate|]. destruct (split2 d e (String a0 s)); discriminate.
Qed.
Lemma split2_no d e s : no_char d s = true -> split2 d e s = [s].
Proof.
  induction s; intros H; [reflexivity|]. simpl in H. apply andb_true_iff in H. destruct H as [H1 H2].
  apply negb_true_iff in H1. destruct s as [|b s]; [reflexivity|].
  change (split2 d e (String a (String b s))) with
    (if Ascii.eqb a d && Ascii.eqb b e then "" :: split2 d e s
     else match split2 d e (String b s) with h :: t => String a h :: t | [] => [String a ""] end).
  rewrite H1. simpl andb. cbv iota. rewrite (IHs H2). reflexivity.
Qed.
Lemma split2_app d e s t : no_char d s = true -> split2 d e (s ++ String d (String e t)) = s :: split2 d e t.
Proof.
  induction s; intros H.
  - change ("" ++ String d (String e t)) with (String d (String e t)). simpl. rewrite !Ascii.eqb_refl. reflexivity.
  - simpl in H. apply andb_true_iff in H. destruct H as [H1 H2]. apply negb_true_iff in H1. specialize (IHs H2).
    change (String a s ++ String d (String e t)) with (String a (s ++ String d (String e t))).
    destruct (s ++ String d (String e t)) as [|b r] eqn:E; [destruct s; discriminate|].
    change (split2 d e (String a (String b r))) with
      (if Ascii.eqb a d && Ascii.eqb b e then "" :: split2 d e r
       else match split2 d e (String b r) with h :: t => String a h :: t | [] => [String a ""] end).
    rewrite H1. simpl andb. cbv iota. rewrite IHs. reflexivity.
Qed.
Lemma split2_concat d e l :
  l <> [] -> Forall (fun s => no_char d s = true) l -> split2 d e (String.concat (String d (String e "")) l) = l.
Proof.
  intros Hne H. induction H as [|a l Ha Hl IH]; [contradiction|]. destruct l as [|b l].
  - apply split2_no, Ha.
  - rewrite concat_cons. change (String d (String e "") ++ String.concat (String d (String e "")) (b :: l))
      with (String d (String e (String.concat (String d (String e "")) (b :: l)))).
    rewrite split2_app by exact Ha. rewrite IH by discriminate. reflexivity.
Qed.

Lemma In_concat c sep l p : In p l -> In_chars c p -> In_chars c (String.concat sep l).
Proof.
  induction l as [|a l IH]; intros [].
  - subst a. intros H. destruct l; [exact H|]. rewrite concat_cons. apply In_chars_app. left. exact H.
  - intros Hc. destruct l as [|b l]; [contradiction|]. rewrite concat_cons, !In_chars_app. right. right. auto.
Qed.

(** ** Lists of names *)
Lemma str_index_none s l : str_index s l = None <-> ~ In s l.
Proof.
  induction l as [|x l IH]; simpl; [tauto|]. destruct (String.eqb_spec s x).
  - subst. split; [discriminate|intros H; exfalso; apply H; left; reflexivity].
  - destruct (str_index s l) as [i|]; simpl.
    + split; [discriminate|]. intros H. exfalso. destruct IH as [_ IH].
      assert (~ In s l) as Hn by tauto. specialize (IH Hn). discriminate.
    + split; [|reflexivity]. intros _ [H|H]; [congruence|]. apply IH in H; [exact H|reflexivity].
Qed.
Lemma str_index_some s l i : str_index s l = Some i -> nth_error l i = Some s.
Proof.
  revert i. induction l as [|x l IH]; simpl; [discriminate|]. intros i. destruct (String.eqb_spec s x).
  - intros H. injection H as <-. subst. reflexivity.
  - destruct (str_index s l) as [j|]; simpl; [|discriminate]. intros H. injection H as <-. apply IH. reflexivity.
Qed.
Lemma str_index_nodup s l i : NoDup l -> nth_error l i = Some s -> str_index s l = Some i.
Proof.
  intros Hn. revert i. induction Hn as [|x l Hx Hn IH]; intros i Hi; [destruct i; discriminate|].
  simpl. destruct i as [|i]; simpl in Hi.
  - injection Hi as ->. rewrite String.eqb_refl. reflexivity.
  - destruct (String.eqb_spec s x).
    + subst x. exfalso. apply Hx. apply nth_error_In in Hi. exact Hi.
    + rewrite (IH i Hi). reflexivity.
Qed.
Lemma str_mem_In s l : str_mem s l = true <-> In s l.
Proof.
  unfold str_mem. rewrite existsb_exists. split.
  - intros (x & H & E). apply String.eqb_eq in E. subst. exact H.
  - intros H. exists s. split; [exact H|apply String.eqb_refl].
Qed.
Lemma strs_eqb_eq a b : strs_eqb a b = true <-> a = b.
Proof.
  revert b. induction a as [|x a IH]; destruct b as [|y b]; simpl; try (split; [discriminate|discriminate]); [tauto|].
  rewrite andb_true_iff, String.eqb_eq, IH. split; [intros [-> ->]; reflexivity|intros H; injection H; auto].
Qed.

Lemma mapM_ok {A B} (f : A -> result B) l l' : mapM f l = Ok l' <-> Forall2 (fun x y => f x = Ok y) l l'.
Proof.
  revert l'. induction l as [|x l IH]; intros l'; simpl.
  - split; [intros H; assert (l' = []) by congruence; subst; constructor|]. intros H. inversion H. reflexivity.
  - split.
    + intros H. destruct (f x) as [y|e] eqn:E; [|discriminate]. simpl in H. destruct (mapM f l) as [ys|e] eqn:E'; [|discriminate].
      simpl in H. assert (l' = y :: ys) by congruence. subst. constructor; [exact E|]. apply IH. reflexivity.
    + intros H. inversion H; subst. rewrite H2. simpl. rewrite (proj2 (IH l'0) H4). reflexivity.
Qed.
Lemma mapM_err {A B} (f : A -> result B) l e :
  (forall x, In x l -> match f x with Ok _ => True | Err e' => e' = e end) ->
  (exists x, In x l /\ f x = Err e) -> mapM f l = Err e.
Proof.
  induction l as [|x l IH]; intros H1 (y & Hy & Hf); [destruct Hy|]. simpl.
  pose proof (H1 x (or_introl eq_refl)) as Hx. destruct (f x) as [b|e'] eqn:E.
  - simpl. destruct Hy as [->|Hy]; [congruence|]. rewrite IH; [reflexivity| |eauto]. intros z Hz. apply H1. right. exact Hz.
  - simpl. congruence.
Qed.
