(** Proofs: key usage in requests, migration and related certificates. *)
From Coq Require Import String Ascii NArith.
From Verif Require Import Prelude PreludeFacts PyStr PyStrProofs BitModel BitSpec BitProofs BitMore BitUsage.
From Verif Require CompLoadModel.
Local Notation length := List.length.
Local Open Scope string_scope.

(** ** The list of usages *)
Definition usages (x : list bool) (u : list string) : Prop :=
  (forall n, n <> "" -> (In n u <-> allows x n)) /\ (In "" u <-> ~ exists n, allows x n).
Lemma allows_name x n : allows x n -> In n KU_NAMES.
Proof. intros (i & Hi & _). eapply nth_error_In; eauto. Qed.
Lemma ku_nonempty n : In n KU_NAMES -> n <> "".
Proof. intros H ->. simpl in H. intuition discriminate. Qed.
Lemma usages_of x : usages x (split2 "," " " (String.concat ", " (names_set KU_NAMES x))).
Proof.
  destruct (names_set KU_NAMES x) as [|a r] eqn:E.
  - assert (forall n, ~ allows x n) as N by (intros n H; apply names_set_In in H; rewrite E in H; destruct H).
    change (split2 "," " " (String.concat ", " [])) with [""]. split.
    + intros n Hn. split; [intros [<-|[]]; contradiction|intros H; destruct (N n H)].
    + split; [intros _ (n & H); exact (N n H)|intros _; left; reflexivity].
  - rewrite <- E. rewrite split_names_set; [|apply ku_good|rewrite E; discriminate]. split.
    + intros n _. apply names_set_In.
    + split.
      * intros H. apply names_set_In in H. apply allows_name, ku_nonempty in H. contradiction.
      * intros H. exfalso. apply H. exists a. apply names_set_In. rewrite E. left. reflexivity.
Qed.
Lemma subset_spec (u l : list string) : subset u l = true <-> forall n, In n u -> In n l.
Proof.
  unfold subset. rewrite forallb_forall. split; intros H n Hn; apply H in Hn; apply str_mem_In; exact Hn.
Qed.
Lemma inter_spec (u l : list string) : inter u l = true <-> exists n, In n u /\ In n l.
Proof.
  unfold inter. rewrite existsb_exists. split; intros (n & H1 & H2); exists n; split; auto; apply str_mem_In; exact H2.
Qed.
Lemma decide_allows x : (exists n, allows x n) \/ ~ exists n, allows x n.
Proof.
  destruct (names_set KU_NAMES x) as [|a r] eqn:E; [right|left; exists a; apply names_set_In; rewrite E; left; reflexivity].
  intros (n & H). apply names_set_In in H. rewrite E in H. destruct H.
Qed.
Lemma u_subset x u l : usages x u -> ~ In "" l ->
  (subset u l = true <-> (exists n, allows x n) /\ forall n, allows x n -> In n l).
Proof.
  intros [U1 U2] Hl. rewrite subset_spec. split.
  - intros H. split; [|intros n Hn; apply H, U1; [apply ku_nonempty, (allows_name x), Hn|exact Hn]].
    destruct (decide_allows x) as [D|D]; [exact D|]. apply U2, H in D. contradiction.
  - intros [He Ha] n Hn. destruct (string_dec n "") as [->|D]; [apply U2 in Hn; contradiction|]. apply Ha, U1; assumption.
Qed.
Lemma u_inter x u l : usages x u -> ~ In "" l -> (inter u l = true <-> exists n, In n l /\ allows x n).
Proof.
  intros [U1 _] Hl. rewrite inter_spec. split; intros (n & H1 & H2); exists n.
  - assert (n <> "") as D by (intros ->; contradiction). split; [exact H2|]. apply U1; assumption.
  - split; [apply U1; [intros ->; contradiction|exact H2]|exact H1].
Qed.
Lemma u_mem x u n : usages x u -> n <> "" -> (str_mem n u = true <-> allows x n).
Proof. intros [U1 _] Hn. rewrite str_mem_In. apply U1, Hn. Qed.

Lemma ok_or_err (b : bool) e (P : Prop) : (b = true <-> P) ->
  (P -> guard b e = Ok tt) /\ (~ P -> guard b e = Err e).
Proof. intros H. destruct b; split; intros HP; try reflexivity; [destruct HP; apply H; reflexivity|apply H in HP; discriminate]. Qed.

Ltac no_empty := let H := fresh in intros H; cbn [In] in H; repeat (destruct H as [H|H]; [discriminate|]); exact H.

Lemma sig_check x u : usages x u ->
  (sig_fit x -> check_sig_key u = Ok tt) /\ (~ sig_fit x -> check_sig_key u = Err EBadCertTemplate).
Proof.
  intros U. unfold check_sig_key. change (diff SIG_DISALLOWED KU_NAMES) with (@nil string). cbn [guard bind].
  assert (subset u SIG_USAGES = true <-> sig_fit x) as A by (apply u_subset; [exact U|no_empty]).
  destruct (subset u SIG_USAGES); cbn [guard bind].
  - assert (inter u SIG_DISALLOWED = false) as ->.
    { apply Bool.not_true_is_false. rewrite (u_inter x u SIG_DISALLOWED U) by no_empty. intros (n & Hn & Ha).
      destruct (proj1 A eq_refl) as [_ B]. apply B in Ha. clear - Hn Ha. cbn [In SIG_DISALLOWED] in *. intuition (subst; discriminate). }
    split; [reflexivity|]. intros H. exfalso. apply H, A. reflexivity.
  - split; [|reflexivity]. intros H. apply A in H. discriminate.
Qed.
Lemma only_flags_check x u : usages x u ->
  (~ allows x "encipherOnly" /\ ~ allows x "decipherOnly" -> check_only_flags u = Ok tt) /\
  (~ (~ allows x "encipherOnly" /\ ~ allows x "decipherOnly") -> check_only_flags u = Err EBadCertTemplate).
Proof.
  intros U. unfold check_only_flags.
  pose proof (u_mem x u "encipherOnly" U ltac:(discriminate)) as A. pose proof (u_mem x u "decipherOnly" U ltac:(discriminate)) as B.
  assert (inter u ["encipherOnly"; "decipherOnly"] = true <-> allows x "encipherOnly" \/ allows x "decipherOnly") as C.
  { rewrite (u_inter x u _ U) by no_empty. split; [intros (n & [<-|[<-|[]]] & H); auto|].
    intros [H|H]; eexists; (split; [|exact H]); cbn [In]; auto. }
  destruct (str_mem "encipherOnly" u), (str_mem "decipherOnly" u), (inter u _), (str_mem "keyAgreement" u); cbn [orb andb negb guard bind];
    (split; intros H; [try reflexivity; exfalso|try reflexivity; exfalso]); intuition discriminate.
Qed.
Lemma ecc_check x u (P := forall n, In n ["keyEncipherment"; "dataEncipherment"; "encipherOnly"; "decipherOnly"] -> ~ allows x n) :
  usages x u -> (P -> check_ecc_key_usage u = Ok tt) /\ (~ P -> check_ecc_key_usage u = Err EBadCertTemplate).
Proof.
  intros U. unfold check_ecc_key_usage. destruct (only_flags_check x u U) as [O1 O2].
  assert (inter u ["keyEncipherment"; "dataEncipherment"] = true <-> allows x "keyEncipherment" \/ allows x "dataEncipherment") as C.
  { rewrite (u_inter x u _ U) by no_empty. split; [intros (n & [<-|[<-|[]]] & H); auto|].
    intros [H|H]; eexists; (split; [|exact H]); cbn [In]; auto. }
  destruct (inter u _); cbn [negb guard bind].
  - split; [|reflexivity]. intros H. exfalso. destruct (proj1 C eq_refl) as [D|D]; revert D; apply H; cbn [In]; auto.
  - assert (P <-> ~ allows x "encipherOnly" /\ ~ allows x "decipherOnly") as E.
    { unfold P. split; [intros H; split; apply H; cbn [In]; auto 6|]. intros [H1 H2] n [<-|[<-|[<-|[<-|[]]]]]; auto; intros D;
        assert (false = true) by (apply C; auto); discriminate. }
    rewrite E. auto.
Qed.
Lemma x_check x u (P := forall n, allows x n -> n = "keyAgreement") :
  usages x u -> (P -> check_x_ecc_key_usage u = Ok tt) /\ (~ P -> check_x_ecc_key_usage u = Err EBadCertTemplate).
Proof.
  intros U. unfold check_x_ecc_key_usage. cbv zeta. destruct (only_flags_check x u U) as [O1 O2].
  change (diff KU_NAMES ["decipherOnly"; "encipherOnly"; "keyAgreement"])
    with ["digitalSignature"; "nonRepudiation"; "keyEncipherment"; "dataEncipherment"; "keyCertSign"; "cRLSign"].
  pose proof (u_inter x u ["digitalSignature"; "nonRepudiation"; "keyEncipherment"; "dataEncipherment"; "keyCertSign"; "cRLSign"] U ltac:(no_empty)) as C.
  destruct (inter u _); cbn [negb guard bind].
  - split; [|reflexivity]. intros H. exfalso. destruct (proj1 C eq_refl) as (n & Hn & Ha). apply H in Ha. subst n.
    cbn [In] in Hn. intuition discriminate.
  - assert (P <-> ~ allows x "encipherOnly" /\ ~ allows x "decipherOnly") as E.
    { unfold P. split; [intros H; split; intros D; apply H in D; discriminate|]. intros [H1 H2] n Ha.
      pose proof (allows_name x n Ha) as Hn. destruct (string_dec n "keyAgreement") as [D|D]; [exact D|exfalso].
      assert (false = true); [|discriminate]. apply C. exists n. split; [|exact Ha]. clear C O1 O2 U.
      cbn [In KU_NAMES] in Hn |- *. intuition (subst; tauto). }
    rewrite E. auto.
Qed.
Lemma kem_check x u (P := forall n, allows x n <-> n = "keyEncipherment") e : usages x u ->
  (P -> guard (subset u ["keyEncipherment"] && str_mem "keyEncipherment" u) e = Ok tt) /\
  (~ P -> guard (subset u ["keyEncipherment"] && str_mem "keyEncipherment" u) e = Err e).
Proof.
  intros U. apply ok_or_err. rewrite andb_true_iff, (u_subset x u _ U) by no_empty. rewrite (u_mem x u _ U) by discriminate.
  unfold P. split.
  - intros [[_ H] H'] n. split; [intros Ha; apply H in Ha; destruct Ha as [<-|[]]; reflexivity|intros ->; exact H'].
  - intros H. split; [split; [exists "keyEncipherment"; apply H; reflexivity|intros n Hn; left; symmetry; apply H, Hn]|apply H; reflexivity].
Qed.

Lemma re_encode x : exists y, prepare_key_usage_extension
    (String.concat "," (split2 "," " " (String.concat ", " (names_set KU_NAMES x)))) true = Ok (y, true) /\
    (forall n, allows y n <-> allows x n) /\ (y = [] \/ exists z, y = (z ++ [true])%list).
Proof.
  destruct (names_set KU_NAMES x) as [|a r] eqn:E.
  - exists []. split; [reflexivity|]. split; [|left; reflexivity]. intros n. split.
    + intros (i & _ & H). destruct i; discriminate.
    + intros H. apply names_set_In in H. rewrite E in H. destruct H.
  - rewrite <- E. rewrite split_names_set; [|apply ku_good|rewrite E; discriminate].
    destruct (prepare_exact (String.concat "," (names_set KU_NAMES x)) (names_set KU_NAMES x) true) as (y & Ey & Sy).
    + apply lists_plain. rewrite E. discriminate.
    + intros n Hn. apply names_set_In in Hn. exact (allows_name x n Hn).
    + exists (y ++ [true])%list. split; [exact Ey|]. split; [|right; exists y; reflexivity]. intros n. rewrite Sy. apply names_set_In.
Qed.

Lemma verify_usage x key : has_rule key ->
  (usages_fit key x -> exists y, verify_key_usage (Some x) SOther (Some key) = Ok (Some (y, true)) /\
      (forall n, allows y n <-> allows x n) /\ (y = [] \/ exists z, y = (z ++ [true])%list)) /\
  (~ usages_fit key x -> verify_key_usage (Some x) SOther (Some key) = Err EBadCertTemplate).
Proof.
  intros R. unfold verify_key_usage, ku. rewrite get_names_eq. cbn [bind]. cbv zeta.
  pose proof (usages_of x) as U. destruct (re_encode x) as (y & Ey & Sy & Cy). rewrite Ey.
  set (u := split2 "," " " _) in *.
  assert (forall (t : result unit) (P : Prop), (P -> t = Ok tt) /\ (~ P -> t = Err EBadCertTemplate) ->
    (P -> exists y0, (let! _ := t in let! e := Ok (y, true) in Ok (Some e)) = Ok (Some (y0, true)) /\
        (forall n, allows y0 n <-> allows x n) /\ (y0 = [] \/ exists z, y0 = (z ++ [true])%list)) /\
    (~ P -> (let! _ := t in let! e := Ok (y, true) in Ok (Some e)) = Err EBadCertTemplate)) as K.
  { intros t P [H1 H2]. split; intros HP; [rewrite (H1 HP); exists y; cbn [bind]; auto|rewrite (H2 HP); reflexivity]. }
  assert (forall (t : result unit) (P Q : Prop), (Q <-> P) -> (P -> t = Ok tt) /\ (~ P -> t = Err EBadCertTemplate) ->
    (Q -> exists y0, (let! _ := t in let! e := Ok (y, true) in Ok (Some e)) = Ok (Some (y0, true)) /\
        (forall n, allows y0 n <-> allows x n) /\ (y0 = [] \/ exists z, y0 = (z ++ [true])%list)) /\
    (~ Q -> (let! _ := t in let! e := Ok (y, true) in Ok (Some e)) = Err EBadCertTemplate)) as K'.
  { intros t P Q HQ H. destruct (K t P H) as [K1 K2]. split; intros HH; [apply K1, HQ, HH|apply K2; intros HP; apply HH, HQ, HP]. }
  destruct key as [| | |n]; cbn [usages_fit has_rule] in *.
  - apply K, kem_check, U.
  - apply K, sig_check, U.
  - destruct R.
  - cbn [In] in R. destruct R as [<-|[<-|[<-|[<-|[<-|[<-|[<-|[]]]]]]]].
    + eapply K'; [|apply sig_check, U]. cbn [In]. intuition discriminate.
    + eapply K'; [|apply sig_check, U]. cbn [In]. intuition discriminate.
    + eapply K'; [|apply sig_check, U]. cbn [In]. intuition discriminate.
    + eapply K'; [|apply (ecc_check x), U]. cbv zeta. split; [|intros H; right; left; split; [reflexivity|exact H]].
      intros [[H _]|[[_ H]|[H|[H _]]]]; [cbn [In] in H; intuition discriminate|exact H|discriminate|cbn [In] in H; intuition discriminate].
    + eapply K' with (P := True); [intuition|]. split; [reflexivity|tauto].
    + eapply K'; [|apply (x_check x), U]. cbv zeta. split; [|intros H; right; right; right; split; [left; reflexivity|exact H]].
      intros [[H _]|[[H _]|[H|[_ H]]]]; [cbn [In] in H; intuition discriminate|discriminate|discriminate|exact H].
    + eapply K'; [|apply (x_check x), U]. cbv zeta. split; [|intros H; right; right; right; split; [right; left; reflexivity|exact H]].
      intros [[H _]|[[H _]|[H|[_ H]]]]; [cbn [In] in H; intuition discriminate|discriminate|discriminate|exact H].
Qed.
Lemma verify_ecdh x alg n : alg <> SOther -> verify_key_usage (Some x) alg (Some (RTrad n)) = Err EValueError.
Proof.
  intros H. unfold verify_key_usage, ku. rewrite get_names_eq. cbn [bind]. cbv zeta. destruct alg; [reflexivity|reflexivity|contradiction].
Qed.
Lemma verify_no_rule x key : ~ has_rule key -> key <> RTrad "id_ecMQV" -> key <> RTrad "id_ecDH" -> verify_key_usage (Some x) SOther (Some key) = Err EValueError.
Proof.
  intros H N1 N2. unfold verify_key_usage, ku. rewrite get_names_eq. cbn [bind]. cbv zeta. destruct key as [| | |n]; cbn [has_rule] in H; try (exfalso; apply H; exact I); [reflexivity|].
  cbn [In] in H. unfold str_mem at 1 2 3. cbn [existsb].
  repeat match goal with |- context [String.eqb n ?k] => destruct (String.eqb_spec n k) as [->|?]; [exfalso; first [contradiction | tauto]|] end; cbn [orb bind]; try reflexivity.
Qed.

(** ** Substrings *)
Lemma prefix_app d k a t : no_char d k = true -> String.prefix k (a ++ String d t) = String.prefix k a.
Proof.
  revert a. induction k as [|c k IH]; intros a H; [destruct a; reflexivity|].
  unfold no_char in H. cbn [all_chars] in H. apply andb_true_iff in H. destruct H as [H1 H2]. destruct a as [|e a].
  - cbn [append String.prefix]. destruct (ascii_dec c d) as [->|]; [rewrite Ascii.eqb_refl in H1; discriminate|reflexivity].
  - cbn [append String.prefix]. destruct (ascii_dec c e); [apply IH, H2|reflexivity].
Qed.
Lemma contains_app d k a t : k <> "" -> no_char d k = true ->
  CompLoadModel.contains k (a ++ String d t) = CompLoadModel.contains k a || CompLoadModel.contains k t.
Proof.
  intros Hk H. induction a as [|c a IH].
  - cbn [append CompLoadModel.contains]. rewrite (prefix_app d k "" t H : String.prefix k (String d t) = String.prefix k "").
    destruct k; [contradiction|]. cbn [String.prefix orb]. reflexivity.
  - cbn [append CompLoadModel.contains]. rewrite IH. change (String c (a ++ String d t)) with (String c a ++ String d t).
    rewrite (prefix_app d k (String c a) t H). apply orb_assoc.
Qed.
Lemma contains_concat k l : k <> "" -> no_char "," k = true -> no_char " " k = true ->
  CompLoadModel.contains k (String.concat ", " l) = existsb (CompLoadModel.contains k) l.
Proof.
  intros Hk H1 H2. induction l as [|a l IH].
  - cbn [String.concat existsb CompLoadModel.contains]. destruct k; [contradiction|reflexivity].
  - destruct l as [|b l]; [cbn [String.concat existsb]; rewrite orb_false_r; reflexivity|].
    rewrite concat_cons. change (", " ++ String.concat ", " (b :: l)) with (String "," ("" ++ String " " (String.concat ", " (b :: l)))).
    rewrite (contains_app "," k a _ Hk H1), (contains_app " " k "" _ Hk H2), IH.
    change (existsb (CompLoadModel.contains k) (a :: b :: l)) with (CompLoadModel.contains k a || existsb (CompLoadModel.contains k) (b :: l)).
    f_equal. cbn [CompLoadModel.contains]. destruct k; [contradiction|reflexivity].
Qed.
Lemma contains_usage k x : In k ["keyCertSign"; "cRLSign"] ->
  (CompLoadModel.contains k (String.concat ", " (names_set KU_NAMES x)) = true <-> allows x k).
Proof.
  intros Hk. rewrite contains_concat; [|destruct Hk as [<-|[<-|[]]]; (discriminate || reflexivity)..].
  rewrite existsb_exists. split.
  - intros (n & Hn & Hc). pose proof (allows_name x n (proj1 (names_set_In _ _ _) Hn)) as Hi. assert (n = k) as <-; [|apply names_set_In, Hn].
    clear Hn. cbn [In KU_NAMES] in Hi. destruct Hk as [<-|[<-|[]]]; repeat (destruct Hi as [<-|Hi]; [reflexivity || discriminate|]); destruct Hi.
  - intros H. exists k. split; [apply names_set_In, H|]. destruct Hk as [<-|[<-|[]]]; reflexivity.
Qed.

Lemma logic_usage x bc ee (P := (ee = Some false -> ~ allows x "keyCertSign" /\ ~ allows x "cRLSign") /\
                              (forall b, bc = Some b -> bc_ca b = false -> ~ allows x "keyCertSign")) :
  (P -> check_logic_extensions (Some (Some x, bc)) ee = Ok tt) /\
  (~ P -> check_logic_extensions (Some (Some x, bc)) ee = Err EBadCertTemplate).
Proof.
  unfold check_logic_extensions, ku. rewrite get_names_eq. cbn [bind].
  pose proof (contains_usage "keyCertSign" x ltac:(cbn [In]; auto)) as A. pose proof (contains_usage "cRLSign" x ltac:(cbn [In]; auto)) as B.
  destruct (CompLoadModel.contains "keyCertSign" _), (CompLoadModel.contains "cRLSign" _);
    destruct ee as [[]|]; destruct bc as [[[] pth]|]; cbn [orb negb andb guard bind bc_ca]; unfold P; (split; intros H; [try reflexivity; exfalso|try reflexivity; exfalso]);
    first [ destruct H as [H1 H2]; (try specialize (H1 eq_refl)); (try specialize (H2 _ eq_refl eq_refl)); intuition discriminate
          | apply H; split; [try discriminate; intros _; split; intros D; intuition discriminate
                            |try discriminate; intros b Hb Hc D; try (injection Hb as <-; discriminate Hc); intuition discriminate] ].
Qed.

(** ** CA key usage of an end entity turned CA *)
Lemma ensure_exact x :
  (allows x "keyCertSign" -> ensure_key_usage (Some x) = Ok x) /\
  (~ allows x "keyCertSign" -> ensure_key_usage (Some x) = Err EBadCertTemplate).
Proof.
  unfold ensure_key_usage, ku. rewrite get_names_eq. cbn [bind].
  assert (subset ["keyCertSign"] (split2 "," " " (String.concat ", " (names_set KU_NAMES x))) = true <-> allows x "keyCertSign") as A.
  { rewrite subset_spec. rewrite <- (proj1 (usages_of x) "keyCertSign") by discriminate. split; [intros H; apply H; left; reflexivity|intros H n [<-|[]]; exact H]. }
  destruct (subset _ _); cbn [guard bind]; split; intros H; try reflexivity; [exfalso; apply H, A; reflexivity|apply A in H; discriminate].
Qed.

(** ** Migration *)
Lemma migration_sig x : validate_migration_key_usage MSig (Some x) = Err EValueError.
Proof.
  unfold validate_migration_key_usage, ku. rewrite get_names_eq. cbn [bind]. cbv zeta.
  destruct (subset _ SIG_USAGES); cbn [guard bind]; [|reflexivity]. destruct (inter _ _); reflexivity.
Qed.
Lemma migration_kem x (P := forall n, allows x n <-> n = "keyEncipherment") :
  (P -> validate_migration_key_usage MKem (Some x) = Ok tt) /\
  (~ P -> validate_migration_key_usage MKem (Some x) = Err EValueError).
Proof.
  unfold validate_migration_key_usage, ku. rewrite get_names_eq. cbn [bind]. cbv zeta. apply kem_check, usages_of.
Qed.

(** ** Related certificates *)
Lemma related_subset a b : k_eku a = None ->
  (forall x, k_usage a = Some x -> exists y, k_usage b = Some y /\ forall n, allows x n -> allows y n) ->
  validate_ku_and_eku_related_cert a b = Ok tt.
Proof.
  intros He H. unfold validate_ku_and_eku_related_cert. rewrite He. cbn [bind]. destruct (k_usage a) as [x|]; [|reflexivity].
  destruct (H x eq_refl) as (y & -> & S). unfold ku. rewrite !get_names_eq. cbn [bind].
  assert (all_chars (fun c => has_char c (String.concat ", " (names_set KU_NAMES y))) (String.concat ", " (names_set KU_NAMES x)) = true) as ->; [|reflexivity].
  assert (forall n, In n (names_set KU_NAMES x) -> In n (names_set KU_NAMES y)) as S' by (intros n Hn; apply names_set_In, S, names_set_In, Hn).
  pose proof (names_set_nodup KU_NAMES x (proj1 ku_good)) as Nx. pose proof (names_set_nodup KU_NAMES y (proj1 ku_good)) as Ny.
  revert S' Nx Ny. generalize (names_set KU_NAMES x) (names_set KU_NAMES y). clear. intros l m S Nl Nm.
  apply all_chars_spec. intros c Hc. apply has_char_spec.
  assert ((exists n, In n l /\ In_chars c n) \/ ((c = ","%char \/ c = " "%char) /\ (2 <= length l)%nat)) as [(n & Hn & Hcn)|[Hs L]].
  { clear - Hc. induction l as [|a l IH]; [destruct Hc|]. destruct l as [|b l].
    - left. exists a. split; [left; reflexivity|exact Hc].
    - rewrite concat_cons in Hc. apply In_chars_app in Hc. destruct Hc as [Hc|Hc]; [left; exists a; split; [left; reflexivity|exact Hc]|].
      apply In_chars_app in Hc. destruct Hc as [Hc|Hc].
      + right. split; [|simpl; lia]. cbn [In_chars] in Hc. intuition.
      + destruct (IH Hc) as [(n & Hn & Hcn)|[Hs L]]; [left; exists n; split; [right; exact Hn|exact Hcn]|right; split; [exact Hs|simpl in *; lia]]. }
  - apply (In_concat c ", " m n); auto.
  - assert (length l <= length m)%nat as L' by (apply NoDup_incl_length; [exact Nl|exact S]).
    destruct m as [|a [|b m]]; [simpl in *; lia|simpl in *; lia|]. rewrite concat_cons. apply In_chars_app. right. apply In_chars_app. left.
    cbn [In_chars]. intuition.
Qed.
