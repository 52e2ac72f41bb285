(** Proofs about comparisons. *)
From Coq Require Import String Ascii Permutation Lia.
From Verif Require Import Prelude PreludeFacts PyStr ProtTab ChamProofs CatModel CmpModel CmpSpec.
From Verif Require SdModel RelModel SunModel SunVerify ProtMac.
Open Scope string_scope.
Open Scope Z_scope.
Open Scope list_scope.

Lemma beq_iff a b : bytes_eqb a b = true <-> a = b. Proof. apply bytes_eqb_iff. Qed.
Lemma ok_true (b : bool) : Ok b = Ok true <-> b = true. Proof. split; congruence. Qed.

(** ** Names *)

Lemma atv_iff a b : atv_eqb a b = true <-> a = b.
Proof.
  unfold atv_eqb. destruct a as [o v], b as [o' v']. cbn [fst snd]. rewrite andb_true_iff, String.eqb_eq, beq_iff. split; [intros [-> ->]; reflexivity|].
  intros E. injection E as -> ->. split; reflexivity.
Qed.
Lemma in_atv x s : existsb (atv_eqb x) s = true <-> In x s.
Proof.
  rewrite existsb_exists. split.
  - intros (y & I & E). apply atv_iff in E. subst. exact I.
  - intros I. exists x. split; [exact I|]. apply atv_iff. reflexivity.
Qed.
Lemma mode_iff L a b m : (forall r, compare_names L a b m <> Ok r) <-> ~ is_mode m.
Proof.
  unfold compare_names, mode_of, is_mode. split.
  - intros H [-> | [-> | [-> | ->]]]; cbn in H; eapply H; reflexivity.
  - intros N r H. destruct (String.eqb m "strict") eqn:E1; [apply String.eqb_eq in E1; apply N; left; exact E1|].
    destruct (String.eqb m "without_tag") eqn:E2; [apply String.eqb_eq in E2; apply N; right; left; exact E2|].
    destruct (String.eqb m "contains") eqn:E3; [apply String.eqb_eq in E3; apply N; do 2 right; left; exact E3|].
    destruct (String.eqb m "contains_seq") eqn:E4; [apply String.eqb_eq in E4; apply N; do 3 right; exact E4|]. discriminate H.
Qed.
Lemma mode_error L a b m : ~ is_mode m -> compare_names L a b m = Err EValueError.
Proof.
  intros N. unfold compare_names, mode_of.
  destruct (String.eqb m "strict") eqn:E1; [apply String.eqb_eq in E1; exfalso; apply N; left; exact E1|].
  destruct (String.eqb m "without_tag") eqn:E2; [apply String.eqb_eq in E2; exfalso; apply N; right; left; exact E2|].
  destruct (String.eqb m "contains") eqn:E3; [apply String.eqb_eq in E3; exfalso; apply N; do 2 right; left; exact E3|].
  destruct (String.eqb m "contains_seq") eqn:E4; [apply String.eqb_eq in E4; exfalso; apply N; do 3 right; exact E4|]. reflexivity.
Qed.
Lemma without_enc L a b : compare_names L a b "without_tag" = Ok true <-> l_seqenc L (n_rdns a) = l_seqenc L (n_rdns b).
Proof. cbn [compare_names mode_of bind]. change (compare_names L a b "without_tag") with (Ok (bytes_eqb (l_seqenc L (n_rdns a)) (l_seqenc L (n_rdns b)))). rewrite ok_true. apply beq_iff. Qed.
Lemma without_iff L a b : canonical L -> compare_names L a b "without_tag" = Ok true <-> same_name (n_rdns a) (n_rdns b).
Proof. intros C. rewrite without_enc. apply (w_seq L C). Qed.
Lemma strict_iff L a b : canonical L -> compare_names L a b "strict" = Ok true <-> n_tag a = n_tag b /\ same_name (n_rdns a) (n_rdns b).
Proof.
  intros C. change (compare_names L a b "strict") with (Ok (bytes_eqb (encode_name L a) (encode_name L b))). rewrite ok_true, beq_iff.
  unfold encode_name. destruct a as [[t|] a], b as [[u|] b]; cbn [n_tag n_rdns].
  - rewrite (w_tag L C), (w_seq L C). split; [intros [-> H]; split; [reflexivity|exact H]|intros [E H]; injection E as ->; split; [reflexivity|exact H]].
  - split; [intros H; exfalso; exact (w_untagged L C _ _ _ H)|intros [E _]; discriminate E].
  - split; [intros H; exfalso; symmetry in H; exact (w_untagged L C _ _ _ H)|intros [E _]; discriminate E].
  - rewrite (w_seq L C). split; [intros H; split; [reflexivity|exact H]|intros [_ H]; exact H].
Qed.
Lemma contains_iff L a b : compare_names L a b "contains" = Ok true <-> forall x, in_name x (n_rdns a) -> in_name x (n_rdns b).
Proof.
  change (compare_names L a b "contains") with (Ok (forallb (fun r => forallb (fun x => existsb (fun s => existsb (atv_eqb x) s) (n_rdns b)) r) (n_rdns a))).
  rewrite ok_true, forallb_forall. split.
  - intros H x (r & R & X). specialize (H r R). rewrite forallb_forall in H. specialize (H x X). apply existsb_exists in H. destruct H as (s & S & E).
    exists s. split; [exact S|]. apply in_atv, E.
  - intros H r R. apply forallb_forall. intros x X. destruct (H x) as (s & S & E); [exists r; split; assumption|]. apply existsb_exists. exists s. split; [exact S|].
    apply in_atv, E.
Qed.
Lemma seq_iff a : forall b, contains_seq a b = true <->
  forall i r x, nth_error a i = Some r -> In x r -> exists s, nth_error b i = Some s /\ In x s.
Proof.
  induction a as [|r a IH]; intros b; cbn [contains_seq].
  - split; [|reflexivity]. intros _ [|i] r x E; discriminate E.
  - destruct b as [|s b].
    + destruct r as [|y r].
      * rewrite IH. split; intros H.
        -- intros [|i] r x E I; [cbn in E; injection E as <-; destruct I|]. cbn in E. destruct (H i r x E I) as (s & S & _). destruct i; discriminate S.
        -- intros i r x E I. destruct (H (S i) r x E I) as (s & S' & _). discriminate S'.
      * split; [discriminate|]. intros H. destruct (H O (y :: r) y eq_refl (or_introl eq_refl)) as (s & S & _). discriminate S.
    + rewrite andb_true_iff, IH, forallb_forall. split.
      * intros [H T] [|i] r' x E I; cbn in E.
        -- injection E as <-. exists s. split; [reflexivity|]. apply in_atv. exact (H x I).
        -- exact (T i r' x E I).
      * intros H. split.
        -- intros x I. destruct (H O r x eq_refl I) as (s' & E & J). injection E as <-. apply in_atv. exact J.
        -- intros i r' x E I. exact (H (S i) r' x E I).
Qed.
Lemma contains_seq_iff L a b : compare_names L a b "contains_seq" = Ok true <->
  forall i r x, nth_error (n_rdns a) i = Some r -> In x r -> exists s, nth_error (n_rdns b) i = Some s /\ In x s.
Proof. change (compare_names L a b "contains_seq") with (Ok (contains_seq (n_rdns a) (n_rdns b))). rewrite ok_true. apply seq_iff. Qed.
Lemma same_nth a b i r : same_name a b -> nth_error a i = Some r -> exists s, nth_error b i = Some s /\ Permutation r s.
Proof.
  intros H. revert i. induction H as [|x y a b P H IH]; intros [|i] E; try discriminate E; cbn in *.
  - injection E as <-. exists y. split; [reflexivity|exact P].
  - exact (IH i E).
Qed.
Lemma strict_without L a b : canonical L -> compare_names L a b "strict" = Ok true -> compare_names L a b "without_tag" = Ok true.
Proof. intros C H. apply (strict_iff L a b C) in H. apply (without_iff L a b C), H. Qed.
Lemma without_seq L a b : canonical L -> compare_names L a b "without_tag" = Ok true -> compare_names L a b "contains_seq" = Ok true.
Proof.
  intros C H. apply (without_iff L a b C) in H. apply contains_seq_iff. intros i r x E I. destruct (same_nth _ _ _ _ H E) as (s & S & P).
  exists s. split; [exact S|]. exact (Permutation_in x P I).
Qed.
Lemma seq_contains L a b : compare_names L a b "contains_seq" = Ok true -> compare_names L a b "contains" = Ok true.
Proof.
  intros H. apply contains_iff. intros x (r & R & X). apply In_nth_error in R. destruct R as (i & E).
  destruct (proj1 (contains_seq_iff L a b) H i r x E X) as (s & S & J). exists s. split; [exact (nth_error_In _ _ S)|exact J].
Qed.
Lemma same_refl a : same_name a a. Proof. unfold same_name. induction a as [|r a IH]; constructor; [reflexivity|exact IH]. Qed.
Lemma find_rdn_iff L r n : canonical L -> find_rdn L r n = true <-> exists s, In s (n_rdns n) /\ Permutation r s.
Proof.
  intros C. unfold find_rdn. rewrite existsb_exists. split; intros (s & S & H); exists s; (split; [exact S|]).
  - apply (w_rdn L C), beq_iff, H.
  - apply beq_iff, (w_rdn L C), H.
Qed.
Lemma null_iff L n : canonical L -> is_null L n = true <-> n_rdns n = [].
Proof. intros C. unfold is_null. rewrite beq_iff. apply (w_empty L C). Qed.
Lemma params_iff p b : params_absent p b = true <-> p = PAbsent \/ (p = PNull /\ b = true) \/ p = PAny [5; 0].
Proof.
  destruct p as [| |x]; cbn [params_absent].
  - split; [left; reflexivity|reflexivity].
  - split; [intros ->; right; left; split; reflexivity|]. intros [H|[[_ H]|H]]; [discriminate H|exact H|discriminate H].
  - rewrite beq_iff. split; [intros ->; right; right; reflexivity|]. intros [H|[[H _]|H]]; try discriminate H. injection H as ->. reflexivity.
Qed.

(** ** Templates *)

Lemma out_iff f l : out f l = true <-> In f l.
Proof.
  unfold out. rewrite existsb_exists. split; [intros (x & I & E); apply String.eqb_eq in E; subst; exact I|].
  intros I. exists f. split; [exact I|]. apply String.eqb_refl.
Qed.
Lemma out_wanted f i e : In f FIELDS -> out f (filter_options FIELDS i e) = false <-> wanted i e f.
Proof.
  intros F. unfold filter_options, wanted. destruct i as [s|].
  - destruct (out f _) eqn:E.
    + split; [discriminate|]. intros H. apply out_iff, filter_In in E. destruct E as [_ E]. apply negb_true_iff in E.
      assert (existsb (String.eqb f) (split ","%char (strip is_blank s)) = true) by (apply out_iff; exact H). congruence.
    + split; [intros _|reflexivity]. destruct (existsb (String.eqb f) (split ","%char (strip is_blank s))) eqn:X; [apply out_iff in X; exact X|].
      exfalso. assert (out f (filter (fun o => negb (existsb (String.eqb o) (split ","%char (strip is_blank s)))) FIELDS) = true); [|congruence].
      apply out_iff, filter_In. split; [exact F|]. now rewrite X.
  - destruct e as [s|]; [|split; [trivial|reflexivity]].
    destruct (out f (split ","%char (strip is_blank s))) eqn:E.
    + split; [discriminate|]. intros H. apply out_iff in E. exfalso. exact (H E).
    + split; [intros _ I|reflexivity]. apply out_iff in I. unfold items in I. rewrite E in I. discriminate I.
Qed.
Lemma alg_ok a b : SunModel.alg_cmp a b = Ok true <-> a = b. Proof. apply SunVerify.alg_cmp_iff. Qed.
Lemma serial_iff t c b : (match t_serial t with None => true | Some n => b || (n =? c_serial c) end) = true
  <-> (b = false -> forall n, t_serial t = Some n -> n = c_serial c).
Proof.
  destruct (t_serial t) as [n|]; [|split; [discriminate|reflexivity]]. rewrite orb_true_iff, Z.eqb_eq. split.
  - intros [-> | ->]; [discriminate|]. intros _ m E. congruence.
  - intros H. destruct b; [left; reflexivity|right]. apply H; reflexivity.
Qed.
Lemma version_iff t c b : (match t_version t with None => true | Some n => b || (n =? c_version c) end) = true
  <-> (b = false -> forall n, t_version t = Some n -> n = c_version c).
Proof.
  destruct (t_version t) as [n|]; [|split; [discriminate|reflexivity]]. rewrite orb_true_iff, Z.eqb_eq. split.
  - intros [-> | ->]; [discriminate|]. intros _ m E. congruence.
  - intros H. destruct b; [left; reflexivity|right]. apply H; reflexivity.
Qed.
Lemma exts_iff t c b : exts_ok t c b = true <-> (b = false -> forall l e, t_exts t = Some l -> In e l -> exists x, In x (c_exts c) /\ x_id x = x_id e).
Proof.
  unfold exts_ok. destruct b; [split; [discriminate|reflexivity]|]. destruct (t_exts t) as [l|]; [|split; [discriminate|reflexivity]].
  rewrite forallb_forall. split.
  - intros H _ m e E I. injection E as <-. specialize (H e I). apply existsb_exists in H. destruct H as (x & X & E). exists x. split; [exact X|]. apply String.eqb_eq, E.
  - intros H e I. destruct (H eq_refl l e eq_refl I) as (x & X & E). apply existsb_exists. exists x. split; [exact X|]. apply String.eqb_eq, E.
Qed.
Lemma uid_iff t c b : uid_ok t c b = true <-> (b = false -> forall x, t = Some x -> c = Some x).
Proof.
  unfold uid_ok. destruct t as [x|]; [|split; [discriminate|reflexivity]]. destruct b; [split; [discriminate|reflexivity]|]. destruct c as [y|].
  - rewrite beq_iff. split; [intros -> _ z E; congruence|]. intros H. specialize (H eq_refl x eq_refl). congruence.
  - split; [discriminate|]. intros H. specialize (H eq_refl x eq_refl). discriminate H.
Qed.
Lemma validity_iff t c b : validity_ok t c b = true <->
  (b = false -> forall f u x, t_validity t = Some (f, u) -> f = Some x -> x = c_from c)
  /\ (b = false -> forall f u x, t_validity t = Some (f, u) -> u = Some x -> x = c_to c).
Proof.
  unfold validity_ok. destruct b; [split; [split; discriminate|reflexivity]|]. destruct (t_validity t) as [[f u]|]; [|split; [split; discriminate|reflexivity]].
  rewrite andb_true_iff. split.
  - intros [A B]. split; intros _ f' u' x E X; injection E as <- <-; subst; apply Z.eqb_eq; assumption.
  - intros [A B]. split; [destruct f as [x|]; [|reflexivity]|destruct u as [x|]; [|reflexivity]]; apply Z.eqb_eq; [apply (A eq_refl _ _ x eq_refl eq_refl)|apply (B eq_refl _ _ x eq_refl eq_refl)].
Qed.
Lemma key_iff L t c b : key_ok L t c b = Ok true <-> (b = false -> forall s, t_key t = Some s -> key_agrees L s c).
Proof.
  unfold key_ok, key_agrees. destruct b; [split; [discriminate|reflexivity]|]. destruct (t_key t) as [s|]; [|split; [discriminate|reflexivity]].
  destruct (k_bits s) as [|z r] eqn:K.
  - split.
    + intros H _ s' E. injection E as <-. left. split; [exact K|]. destruct (SunModel.alg_cmp (k_alg s) (k_alg (c_key c))) as [[|]|] eqn:A; try discriminate H. apply alg_ok, A.
    + intros H. destruct (H eq_refl s eq_refl) as [[_ E]|[N _]]; [|contradiction]. apply alg_ok in E. rewrite E. reflexivity.
  - split.
    + intros H _ s' E. injection E as <-. right. split; [congruence|]. destruct (l_load L (c_key c)) as [k|] eqn:A; [|discriminate H]. exists k. split; [reflexivity|].
      cbn [bind] in H. apply beq_iff. congruence.
    + intros H. destruct (H eq_refl s eq_refl) as [[E _]|(_ & k & E & D)]; [congruence|]. rewrite E. cbn [bind]. f_equal. apply beq_iff, D.
Qed.
Lemma names_iff L t c ex strict : names_ok L t c ex strict = Ok true <->
  (out "issuer" ex = false -> forall n, t_issuer t = Some n -> l_seqenc L (n_rdns n) = l_seqenc L (n_rdns (c_issuer c)))
  /\ (out "subject" ex = false -> forall n, t_subject t = Some n ->
       if strict then l_seqenc L (n_rdns n) = l_seqenc L (n_rdns (c_subject c)) else forall x, in_name x (n_rdns n) -> in_name x (n_rdns (c_subject c)))
  /\ (out "subject" ex = false -> forall n, t_subject t = Some n ->
       (exists x, l_notation L (n_rdns n) = Ok x) /\ exists y, l_notation L (n_rdns (c_subject c)) = Ok y).
Proof.
  assert (forall n, compare_names L n (c_subject c) (if strict then "without_tag" else "contains") = Ok true <->
    if strict then l_seqenc L (n_rdns n) = l_seqenc L (n_rdns (c_subject c)) else forall x, in_name x (n_rdns n) -> in_name x (n_rdns (c_subject c))) as S.
  { intros n. destruct strict; [apply without_enc|apply contains_iff]. }
  unfold names_ok.
  set (first := match t_issuer t with None => Ok true | Some n => if out "issuer" ex then Ok true else _ end).
  assert (first = Ok true <-> (out "issuer" ex = false -> forall n, t_issuer t = Some n -> l_seqenc L (n_rdns n) = l_seqenc L (n_rdns (c_issuer c)))) as F.
  { unfold first. destruct (t_issuer t) as [n|]; [|split; [discriminate|reflexivity]]. destruct (out "issuer" ex); [split; [discriminate|reflexivity]|].
    change (compare_names L n (c_issuer c) "without_tag") with (Ok (bytes_eqb (l_seqenc L (n_rdns n)) (l_seqenc L (n_rdns (c_issuer c))))). cbn [bind].
    destruct (bytes_eqb _ _) eqn:B.
    - apply beq_iff in B. split; [intros _ _ m E; congruence|reflexivity].
    - split.
      + destruct (l_notation L (n_rdns n)); [|discriminate]. cbn [bind]. destruct (l_notation L (n_rdns (c_issuer c))); discriminate.
      + intros H. specialize (H eq_refl n eq_refl). apply beq_iff in H. congruence. }
  clearbody first. split.
  - intros H. destruct first as [[|]|]; cbn [bind negb] in H; try discriminate H. split; [apply F; reflexivity|].
    destruct (t_subject t) as [n|]; [|split; discriminate]. destruct (out "subject" ex); [split; discriminate|].
    destruct (l_notation L (n_rdns n)) as [x|] eqn:N1; [|discriminate H]. cbn [bind] in H. destruct (l_notation L (n_rdns (c_subject c))) as [y|] eqn:N2; [|discriminate H]. cbn [bind] in H.
    split; intros _ m E; injection E as <-; [apply S, H|]. split; eexists; [exact N1|reflexivity].
  - intros (A & B & C). rewrite (proj2 F A). cbn [bind negb]. destruct (t_subject t) as [n|]; [|reflexivity]. destruct (out "subject" ex); [reflexivity|].
    destruct (C eq_refl n eq_refl) as ((x & X) & y & Y). rewrite X. cbn [bind]. rewrite Y. cbn [bind]. apply S, B; reflexivity.
Qed.
Lemma field_in f : In f FIELDS <-> existsb (String.eqb f) FIELDS = true.
Proof. symmetry. apply out_iff. Qed.
Lemma template_iff L t c i e strict : compare_template L t c i e strict = Ok true <-> agree L t c (wanted i e) strict.
Proof.
  unfold compare_template. set (ex := filter_options FIELDS i e).
  assert (forall f, existsb (String.eqb f) FIELDS = true -> out f ex = false <-> wanted i e f) as W by (intros f F; apply out_wanted, field_in, F).
  assert (out "serialNumber" ex = false <-> wanted i e "serialNumber") as W1 by (apply W; reflexivity).
  assert (out "extensions" ex = false <-> wanted i e "extensions") as W2 by (apply W; reflexivity).
  assert (out "issuer" ex = false <-> wanted i e "issuer") as W3 by (apply W; reflexivity).
  assert (out "subject" ex = false <-> wanted i e "subject") as W4 by (apply W; reflexivity).
  assert (out "publicKey" ex = false <-> wanted i e "publicKey") as W5 by (apply W; reflexivity).
  assert (out "validity" ex = false <-> wanted i e "validity") as W6 by (apply W; reflexivity).
  assert (out "issuerUID" ex = false <-> wanted i e "issuerUID") as W7 by (apply W; reflexivity).
  assert (out "subjectUID" ex = false <-> wanted i e "subjectUID") as W8 by (apply W; reflexivity).
  assert (out "version" ex = false <-> wanted i e "version") as W9 by (apply W; reflexivity).
  clearbody ex. clear W. split.
  - intros H. destruct (match t_serial t with None => true | Some n => _ end) eqn:A; cbn [negb] in H; [|discriminate H]. rewrite serial_iff in A.
    destruct (exts_ok t c (out "extensions" ex)) eqn:B; cbn [negb] in H; [|discriminate H]. rewrite exts_iff in B.
    destruct (names_ok L t c ex strict) as [[|]|] eqn:C; cbn [bind negb] in H; try discriminate H. rewrite names_iff in C. destruct C as (C1 & C2 & C3).
    destruct (key_ok L t c (out "publicKey" ex)) as [[|]|] eqn:D; cbn [bind negb] in H; try discriminate H. rewrite key_iff in D.
    destruct (validity_ok t c (out "validity" ex)) eqn:E; cbn [negb] in H; [|discriminate H]. rewrite validity_iff in E. destruct E as [E1 E2].
    destruct (uid_ok (t_iuid t) (c_iuid c) (out "issuerUID" ex)) eqn:F; cbn [andb negb] in H; [|discriminate H]. rewrite uid_iff in F.
    destruct (uid_ok (t_suid t) (c_suid c) (out "subjectUID" ex)) eqn:G; cbn [andb negb] in H; [|discriminate H]. rewrite uid_iff in G.
    apply ok_true in H. rewrite version_iff in H.
    constructor; intros X; first [apply A, W1, X | apply B, W2, X | apply C1, W3, X | apply C2, W4, X | apply C3, W4, X | apply D, W5, X | apply E1, W6, X | apply E2, W6, X | apply F, W7, X | apply G, W8, X | apply H, W9, X].
  - intros [A B C1 C2 C3 D E1 E2 F G H].
    rewrite (proj2 (serial_iff t c (out "serialNumber" ex))) by (intros X; apply A, W1, X). cbn [negb].
    rewrite (proj2 (exts_iff t c (out "extensions" ex))) by (intros X; apply B, W2, X). cbn [negb].
    rewrite (proj2 (names_iff L t c ex strict)) by (split; [intros X; apply C1, W3, X|split; [intros X; apply C2, W4, X|intros X; apply C3, W4, X]]). cbn [bind negb].
    rewrite (proj2 (key_iff L t c (out "publicKey" ex))) by (intros X; apply D, W5, X). cbn [bind negb].
    rewrite (proj2 (validity_iff t c (out "validity" ex))) by (split; [intros X; apply E1, W6, X|intros X; apply E2, W6, X]). cbn [negb].
    rewrite (proj2 (uid_iff (t_iuid t) (c_iuid c) (out "issuerUID" ex))) by (intros X; apply F, W7, X).
    rewrite (proj2 (uid_iff (t_suid t) (c_suid c) (out "subjectUID" ex))) by (intros X; apply G, W8, X). cbn [andb negb].
    apply ok_true. apply (proj2 (version_iff t c _)). intros X. apply H, W9, X.
Qed.
Lemma include_wins L t c i e strict : compare_template L t c (Some i) e strict = compare_template L t c (Some i) None strict.
Proof. reflexivity. Qed.
Lemma names_total L t c ex strict : (forall n, exists x, l_notation L n = Ok x) -> exists b, names_ok L t c ex strict = Ok b.
Proof.
  intros N. unfold names_ok.
  assert (exists b, match t_issuer t with None => Ok true | Some n => if out "issuer" ex then Ok true else
     let! b := compare_names L n (c_issuer c) "without_tag" in if b then Ok true
     else let! _ := l_notation L (n_rdns n) in let! _ := l_notation L (n_rdns (c_issuer c)) in Ok false end = Ok b) as [b ->].
  { destruct (t_issuer t) as [n|]; [|eexists; reflexivity]. destruct (out "issuer" ex); [eexists; reflexivity|].
    change (compare_names L n (c_issuer c) "without_tag") with (Ok (bytes_eqb (l_seqenc L (n_rdns n)) (l_seqenc L (n_rdns (c_issuer c))))). cbn [bind].
    destruct (bytes_eqb _ _); [eexists; reflexivity|]. destruct (N (n_rdns n)) as [x ->]. destruct (N (n_rdns (c_issuer c))) as [y ->]. eexists. reflexivity. }
  cbn [bind]. destruct (negb b); [eexists; reflexivity|]. destruct (t_subject t) as [n|]; [|eexists; reflexivity]. destruct (out "subject" ex); [eexists; reflexivity|].
  destruct (N (n_rdns n)) as [x ->]. destruct (N (n_rdns (c_subject c))) as [y ->]. cbn [bind]. destruct strict; eexists; reflexivity.
Qed.
Lemma total L t c i e strict : readable L t c -> exists b, compare_template L t c i e strict = Ok b.
Proof.
  intros (N & (k & K) & A). unfold compare_template. set (ex := filter_options FIELDS i e).
  destruct (negb (match t_serial t with None => true | Some n => _ end)); [eexists; reflexivity|]. destruct (negb (exts_ok _ _ _)); [eexists; reflexivity|].
  destruct (names_total L t c ex strict N) as [b ->]. cbn [bind]. destruct (negb b); [eexists; reflexivity|].
  assert (exists b, key_ok L t c (out "publicKey" ex) = Ok b) as [d ->].
  { unfold key_ok. destruct (out "publicKey" ex); [eexists; reflexivity|]. destruct (t_key t) as [s|]; [|eexists; reflexivity].
    destruct (k_bits s) eqn:B; [|rewrite K; eexists; reflexivity]. rewrite (proj2 (alg_ok _ _) (A s eq_refl B)). eexists. reflexivity. }
  cbn [bind]. destruct (negb d); [eexists; reflexivity|]. destruct (negb (validity_ok _ _ _)); [eexists; reflexivity|].
  destruct (negb (uid_ok _ _ _ && uid_ok _ _ _)); eexists; reflexivity.
Qed.
Lemma disagree L t c i e strict : readable L t c -> compare_template L t c i e strict = Ok false <-> ~ agree L t c (wanted i e) strict.
Proof.
  intros R. destruct (total L t c i e strict R) as [[|] E]; rewrite E.
  - apply template_iff in E. split; [discriminate|contradiction].
  - split; [|reflexivity]. intros _ A. apply template_iff in A. congruence.
Qed.
Lemma empty_agrees L c i e strict : compare_template L empty_template c i e strict = Ok true.
Proof. apply template_iff. constructor; intros; discriminate. Qed.
Lemma contained_iff L t certs c : contains_template L t certs = Ok c <->
  exists p q, certs = p ++ c :: q /\ agree L t c (fun _ => True) true /\ (exists b, compare_template L t c (Some "serialNumber, issuer") None false = Ok b)
    /\ forall x, In x p -> compare_template L t x None None true = Ok false /\ exists b, compare_template L t x (Some "serialNumber, issuer") None false = Ok b.
Proof.
  assert (forall x, compare_template L t x None None true = Ok true <-> agree L t x (fun _ => True) true) as T by (intros x; exact (template_iff L t x None None true)).
  induction certs as [|x r IH]; cbn [contains_template].
  - split; [discriminate|]. intros (p & q & E & _). destruct p; discriminate E.
  - split.
    + destruct (compare_template L t x (Some "serialNumber, issuer") None false) as [b|] eqn:A; [|discriminate]. cbn [bind].
      destruct (compare_template L t x None None true) as [[|]|] eqn:B; cbn [bind]; [| |discriminate].
      * intros H. injection H as <-. exists [], r. split; [reflexivity|]. split; [apply T, B|]. split; [eexists; exact A|intros y []].
      * intros H. apply IH in H. destruct H as (p & q & -> & G & O & N). exists (x :: p), q. split; [reflexivity|]. split; [exact G|]. split; [exact O|].
        intros y [<- | I]; [split; [exact B|eexists; exact A]|exact (N y I)].
    + intros (p & q & E & G & (b & O) & N). destruct p as [|y p]; injection E as -> ->.
      * rewrite O. cbn [bind]. apply T in G. rewrite G. reflexivity.
      * destruct (N y (or_introl eq_refl)) as [B (b' & A)]. rewrite A. cbn [bind]. rewrite B. cbn [bind]. apply IH. exists p, q. split; [reflexivity|]. split; [exact G|].
        split; [eexists; exact O|]. intros z I. apply N. right. exact I.
Qed.
Lemma granted_iff L t c i e strict status : granted L t c i e strict status = Ok tt <->
  agree L t c (wanted i e) strict \/ (compare_template L t c i e strict = Ok false /\ status = Ok "grantedWithMods").
Proof.
  unfold granted. rewrite <- template_iff. destruct (compare_template L t c i e strict) as [[|]|]; cbn [bind].
  - split; [left; reflexivity|reflexivity].
  - destruct status as [s|]; cbn [bind].
    + split.
      * intros H. right. split; [reflexivity|]. destruct (String.eqb "grantedWithMods" s) eqn:E; [|discriminate H]. apply String.eqb_eq in E. congruence.
      * intros [H|[_ H]]; [discriminate H|]. assert (s = "grantedWithMods") as -> by congruence. reflexivity.
    + split; [discriminate|]. intros [H|[_ H]]; discriminate H.
  - split; [discriminate|]. intros [H|[H _]]; discriminate H.
Qed.
Lemma any_template_iff L t certs : (forall c, In c certs -> readable L t c) ->
  any_template L t certs = Ok true <-> exists c, In c certs /\ agree L t c (fun _ => True) true.
Proof.
  assert (forall x, compare_template L t x None None true = Ok true <-> agree L t x (fun _ => True) true) as T by (intros x; exact (template_iff L t x None None true)).
  induction certs as [|c r IH]; cbn [any_template]; intros R.
  - split; [discriminate|]. intros (c & [] & _).
  - destruct (total L t c None None true (R c (or_introl eq_refl))) as [[|] E]; rewrite E; cbn [bind].
    + split; [intros _; exists c; split; [left; reflexivity|apply T, E]|reflexivity].
    + rewrite IH by (intros x I; apply R; right; exact I). split; intros (x & I & A).
      * exists x. split; [right; exact I|exact A].
      * destruct I as [<- | I]; [apply T in A; congruence|]. exists x. split; assumption.
Qed.
Lemma any_key_iff L n k certs : canonical L -> (forall c, In c certs -> exists x, l_load L (c_key c) = Ok x) ->
  any_subject_key L n k certs = Ok true <->
  exists c x, In c certs /\ same_name (n_rdns (c_subject c)) (n_rdns n) /\ l_load L (c_key c) = Ok x /\ l_same L k x = true.
Proof.
  intros C. induction certs as [|c r IH]; cbn [any_subject_key]; intros R.
  - split; [discriminate|]. intros (c & x & [] & _).
  - change (compare_names L (c_subject c) n "without_tag") with (Ok (bytes_eqb (l_seqenc L (n_rdns (c_subject c))) (l_seqenc L (n_rdns n)))). cbn [bind].
    destruct (R c (or_introl eq_refl)) as [x X]. rewrite X. cbn [bind]. destruct (bytes_eqb _ _ && l_same L k x) eqn:E.
    + apply andb_true_iff in E. destruct E as [E1 E2]. apply beq_iff, (w_seq L C) in E1. split; [intros _|reflexivity].
      exists c, x. split; [left; reflexivity|]. split; [exact E1|]. split; assumption.
    + rewrite IH by (intros y I; apply R; right; exact I). split; intros (y & z & I & A & Z & S).
      * exists y, z. split; [right; exact I|]. split; [exact A|]. split; assumption.
      * destruct I as [<- | I]; [|exists y, z; split; [exact I|]; split; [exact A|]; split; assumption].
        apply (w_seq L C), beq_iff in A. assert (x = z) by congruence. subst. rewrite A, S in E. discriminate E.
Qed.
Lemma exists_subject L t k n certs : canonical L -> t_subject t = Some n -> (forall c, In c certs -> exists x, l_load L (c_key c) = Ok x) ->
  template_exists L t (Ok (Some k)) certs true = Ok true <->
  exists c x, In c certs /\ same_name (n_rdns (c_subject c)) (n_rdns n) /\ l_load L (c_key c) = Ok x /\ l_same L k x = true.
Proof.
  intros C T R. unfold template_exists. cbn [bind negb]. rewrite T. destruct certs as [|c r].
  - split; [discriminate|]. intros (c & x & [] & _).
  - apply any_key_iff; assumption.
Qed.
Lemma exists_full L t k certs : (forall c, In c certs -> readable L t c) ->
  template_exists L t (Ok (Some k)) certs false = Ok true <-> exists c, In c certs /\ agree L t c (fun _ => True) true.
Proof. intros R. unfold template_exists. cbn [bind negb]. apply any_template_iff, R. Qed.

(** ** Requests and keys *)

Lemma exts_eq a b : SunModel.list_eqb SunModel.ext_eqb a b = true <-> a = b.
Proof. apply SunVerify.list_eqb_iff, SunVerify.ext_eqb_iff. Qed.
Lemma csr_iff L r c strict : compare_csr L r c strict = Ok true <->
  (if strict then l_seqenc L (n_rdns (r_subject r)) = l_seqenc L (n_rdns (c_subject c)) else forall x, in_name x (n_rdns (r_subject r)) -> in_name x (n_rdns (c_subject c)))
  /\ l_spkienc L (r_key r) = l_spkienc L (c_key c)
  /\ (r_attrs r = None \/ r_attrs r = Some [] \/ (asks L r (c_exts c) /\ c_exts c <> [])).
Proof.
  assert (compare_names L (r_subject r) (c_subject c) (if strict then "without_tag" else "contains") = Ok true <->
    if strict then l_seqenc L (n_rdns (r_subject r)) = l_seqenc L (n_rdns (c_subject c)) else forall x, in_name x (n_rdns (r_subject r)) -> in_name x (n_rdns (c_subject c))) as S.
  { destruct strict; [apply without_enc|apply contains_iff]. }
  unfold compare_csr. rewrite <- S. clear S. destruct (compare_names L (r_subject r) (c_subject c) _) as [[|]|]; cbn [bind negb];
    [|split; [discriminate|intros [H _]; discriminate H]|split; [discriminate|intros [H _]; discriminate H]].
  destruct (bytes_eqb (l_spkienc L (r_key r)) (l_spkienc L (c_key c))) eqn:K; cbn [negb].
  2:{ split; [discriminate|]. intros (_ & H & _). apply beq_iff in H. congruence. }
  apply beq_iff in K. unfold asks. destruct (r_attrs r) as [[|a [|b l]]|] eqn:A.
  - split; [|reflexivity]. intros _. split; [reflexivity|]. split; [exact K|]. right; left. reflexivity.
  - split.
    + destruct (String.eqb (SdModel.t_type a) RelModel.EXT_REQUEST) eqn:T; [|discriminate]. apply String.eqb_eq in T.
      destruct (SdModel.t_vals a) as [|v more] eqn:V; [discriminate|]. destruct (l_extsdec L v) as [[l rest]|] eqn:D; [|discriminate].
      intros H. split; [reflexivity|]. split; [exact K|]. right; right.
      destruct l as [|e l]; [discriminate H|]. destruct (c_exts c) as [|x xs] eqn:X; [discriminate H|]. cbn [guard bind] in H. apply ok_true, exts_eq in H.
      split; [|discriminate]. exists a, v, more, rest. rewrite <- H. repeat split; assumption.
    + intros (_ & _ & [H|[H|[H N]]]); [discriminate H|discriminate H|]. destruct H as (a' & v & more & rest & E & T & V & D). injection E as <-.
      rewrite T. cbn [String.eqb]. rewrite String.eqb_refl, V, D. destruct (c_exts c) as [|x xs]; [contradiction|]. cbn [guard bind]. apply ok_true, exts_eq. reflexivity.
  - split; [discriminate|]. intros (_ & _ & [H|[H|[H N]]]); [discriminate H|discriminate H|]. destruct H as (a' & v & more & rest & E & _). discriminate E.
  - split; [|reflexivity]. intros _. split; [reflexivity|]. split; [exact K|]. left. reflexivity.
Qed.
Lemma guard_iff b e : guard b e = Ok tt <-> b = true.
Proof. unfold guard. destruct b; split; congruence. Qed.
Lemma key_valid_iff L c k nm : validate_key L c k nm = Ok tt <->
  exists p x, (match k with KPublic p' => p = p' | KInfo s => l_load L s = Ok p /\ g_oid (k_alg s) = g_oid (k_alg (c_key c)) end)
    /\ l_load L (c_key c) = Ok x /\ l_same L p x = true /\ l_class L p = l_class L x
    /\ forall n, nm = Some n -> l_by_name L n = Ok (g_oid (k_alg (c_key c))).
Proof.
  unfold validate_key. split.
  - intros H. apply ProtMac.bind_inv in H. destruct H as (p & P & H). apply ProtMac.bind_inv in H. destruct H as (x & X & H).
    apply ProtMac.bind_inv in H. destruct H as ([] & S & H). apply ProtMac.bind_inv in H. destruct H as ([] & C & H). apply ProtMac.bind_inv in H. destruct H as ([] & N & H).
    apply guard_iff in S, C. apply Z.eqb_eq in C. exists p, x. split.
    + destruct k as [p'|s]; [congruence|]. apply guard_iff, String.eqb_eq in H. split; [exact P|congruence].
    + split; [exact X|]. split; [exact S|]. split; [exact C|]. intros n ->. apply ProtMac.bind_inv in N. destruct N as (o & O & N). apply guard_iff, String.eqb_eq in N. congruence.
  - intros (p & x & K & X & S & C & N).
    assert (match k with KPublic p' => Ok p' | KInfo s => l_load L s end = Ok p) as -> by (destruct k; [congruence|apply K]). cbn [bind].
    rewrite X. cbn [bind]. rewrite S. cbn [guard bind]. rewrite (proj2 (Z.eqb_eq _ _) C). cbn [guard bind].
    assert (match nm with None => Ok tt | Some n => let! o := l_by_name L n in guard (String.eqb o (g_oid (k_alg (c_key c)))) EValueError end = Ok tt) as ->.
    { destruct nm as [n|]; [|reflexivity]. rewrite (N n eq_refl). cbn [bind]. rewrite String.eqb_refl. reflexivity. }
    cbn [bind]. destruct k as [p'|s]; [reflexivity|]. destruct K as [_ ->]. rewrite String.eqb_refl. reflexivity.
Qed.

(** ** Revocation *)

Lemma reason_find n s : find (fun p => n =? fst p) REASONS = Some s -> s = (n, snd s) /\ In s REASONS.
Proof. intros H. apply find_some in H. destruct H as [I E]. apply Z.eqb_eq in E. split; [|exact I]. destruct s. cbn in *. congruence. Qed.
Lemma reasons_distinct : NoDup (map fst REASONS).
Proof. cbn [map REASONS fst]. repeat constructor; cbn [In]; lia. Qed.
Lemma find_reason n s : In (n, s) REASONS -> find (fun p => n =? fst p) REASONS = Some (n, s).
Proof.
  generalize REASONS reasons_distinct. intros l. induction l as [|[m t] l IH]; intros N I; [destruct I|]. cbn [find fst]. inversion N; subst.
  destruct (Z.eqb_spec n m) as [->|F].
  - destruct I as [E|I]; [congruence|]. exfalso. apply H1. apply (in_map fst) in I. exact I.
  - destruct I as [E|I]; [congruence|]. exact (IH H2 I).
Qed.
Lemma reason_iff D x must r : crl_reason D x must = Ok r <-> gives_reason D x r /\ forall m, must = Some m -> r = m.
Proof.
  unfold crl_reason, gives_reason. split.
  - destruct x as [[|e [|]]|]; try discriminate. intros H. apply ProtMac.bind_inv in H. destruct H as ([] & G & H). apply guard_iff, String.eqb_eq in G.
    destruct (D (x_val e)) as [[n rest]|] eqn:X; [|discriminate H]. apply ProtMac.bind_inv in H. destruct H as ([] & G' & H). apply guard_iff in G'.
    destruct rest; [|discriminate G']. destruct (find _ REASONS) as [[m s]|] eqn:F; [|discriminate H]. apply reason_find in F. destruct F as [F I]. cbn [snd] in F.
    apply ProtMac.bind_inv in H. destruct H as ([] & M & H). apply guard_iff in M. assert (m = n) by congruence. assert (s = r) by congruence. subst.
    split; [exists e, n; repeat split; assumption|]. intros m ->. apply String.eqb_eq, M.
  - intros ((e & n & -> & I & X & R) & M). rewrite I, String.eqb_refl. cbn [guard bind]. rewrite X. cbn [guard bind]. rewrite (find_reason n r R).
    destruct must as [m|]; [|reflexivity]. rewrite (M m eq_refl), String.eqb_refl. reflexivity.
Qed.
Lemma in_list_iff E c l : cert_in_list E c l = true <-> In (E c) (map E l).
Proof.
  unfold cert_in_list. rewrite existsb_exists, in_map_iff. split; intros (x & A & B).
  - apply beq_iff in B. exists x. split; [symmetry; exact B|exact A].
  - exists x. split; [exact B|]. apply beq_iff. congruence.
Qed.
Lemma mandatory_iff t : mandatory t = Ok tt <-> (exists n, t_issuer t = Some n) /\ (exists n, t_serial t = Some n) /\ (t_version t = None \/ t_version t = Some 1).
Proof.
  unfold mandatory. destruct (t_issuer t) as [i|]; cbn [guard bind]; [|split; [discriminate|intros ((n & H) & _); discriminate H]].
  destruct (t_serial t) as [s|]; cbn [guard bind]; [|split; [discriminate|intros (_ & (n & H) & _); discriminate H]].
  destruct (t_version t) as [v|].
  - rewrite guard_iff, Z.eqb_eq. split; [intros ->; repeat split; eauto|]. intros (_ & _ & [H|H]); congruence.
  - split; [intros _; repeat split; eauto|reflexivity].
Qed.
Lemma rev_iff L D E d issued revoked r c : rev_details L D E d issued revoked = Ok (r, c) <->
  ((exists n, t_issuer (d_tpl d) = Some n) /\ (exists n, t_serial (d_tpl d) = Some n) /\ (t_version (d_tpl d) = None \/ t_version (d_tpl d) = Some 1))
  /\ contains_template L (d_tpl d) issued = Ok c /\ gives_reason D (d_crl d) r
  /\ forall l, revoked = Some l -> (r = "removeFromCRL" <-> In (E c) (map E l)).
Proof.
  rewrite <- mandatory_iff. unfold rev_details. split.
  - intros H. apply ProtMac.bind_inv in H. destruct H as ([] & M & H). apply ProtMac.bind_inv in H. destruct H as (c' & C & H).
    apply ProtMac.bind_inv in H. destruct H as (r' & R & H). apply ProtMac.bind_inv in H. destruct H as ([] & V & H). assert (r' = r) by congruence. assert (c' = c) by congruence. subst.
    apply reason_iff in R. split; [exact M|]. split; [exact C|]. split; [apply R|]. intros l ->. rewrite <- in_list_iff.
    destruct (String.eqb_spec r "removeFromCRL") as [->|N]; apply guard_iff in V.
    + split; [intros _; exact V|reflexivity].
    + split; [contradiction|]. intros X. rewrite X in V. discriminate V.
  - intros (M & C & R & V). rewrite M, C. cbn [bind]. rewrite (proj2 (reason_iff D (d_crl d) None r)) by (split; [exact R|discriminate]). cbn [bind].
    destruct revoked as [l|]; [|reflexivity]. specialize (V l eq_refl). rewrite <- in_list_iff in V.
    destruct (String.eqb_spec r "removeFromCRL") as [->|N].
    + rewrite (proj1 V eq_refl). reflexivity.
    + destruct (cert_in_list E c l); [|reflexivity]. exfalso. apply N, V. reflexivity.
Qed.
Lemma rev_identified L D E d issued revoked r c : rev_details L D E d issued revoked = Ok (r, c) -> In c issued /\ identifies L (d_tpl d) c.
Proof.
  intros H. apply rev_iff in H. destruct H as ((I & S & V) & C & _). apply contained_iff in C. destruct C as (p & q & -> & A & _).
  split; [apply in_or_app; right; left; reflexivity|]. destruct I as (i & I), S as (s & S). split.
  - rewrite S. f_equal. exact (a_serial _ _ _ _ _ A Logic.I s S).
  - split; [|split; assumption]. exists i. split; [exact I|]. exact (a_issuer _ _ _ _ _ A Logic.I i I).
Qed.
