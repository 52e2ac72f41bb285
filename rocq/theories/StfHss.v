(** Level lists, HSS public keys, and the signature index. *)
From Coq Require Import String Ascii Arith.
From Verif Require Import Prelude PreludeFacts StfModel StfSpec StfProofs.
Open Scope Z_scope.
Local Notation length := List.length.

(** ** Pairs and levels *)
Lemma when_nil : forall A b (x : A), when b x = [] <-> b = false.
Proof. intros A [] x; simpl; split; intros; congruence. Qed.
Lemma app_nil_iff : forall A (a b : list A), a ++ b = [] <-> a = [] /\ b = [].
Proof. intros. split; [apply app_eq_nil | intros [-> ->]; reflexivity]. Qed.

Lemma zmem_In : forall x l, zmem x l = true <-> In x l.
Proof.
  intros. unfold zmem. rewrite existsb_exists. split.
  - intros [y [I E]]. apply Z.eqb_eq in E. subst. exact I.
  - intros I. exists x. split; [exact I | apply Z.eqb_refl].
Qed.

Lemma validate_pair_total : forall a b, exists l, validate_pair a b = Ok l /\
  (l = [] <-> exists s, valid_set s /\ a = lms_name s /\ b = ots_name s).
Proof.
  intros a b. unfold validate_pair.
  destruct (existsb (String.eqb a) (map fst lms_table)) eqn:Ea; destruct (existsb (String.eqb b) (map fst lmots_table)) eqn:Eb;
    cbn [negb when app].
  - pose proof (proj1 (known_lms a) Ea) as [s1 [V1 ->]]. pose proof (proj1 (known_ots b) Eb) as [s2 [V2 ->]].
    rewrite (parse_lms_name s1 V1), (parse_ots_name s2 V2). cbn [bind].
    eexists. split; [reflexivity|]. rewrite !app_nil_iff, !when_nil, !negb_false_iff, !zmem_In, fam_eqb.
    rewrite Bool.eqb_true_iff, Z.eqb_eq. split.
    + intros [H1 [H2 _]]. exists {| ls_shake := ls_shake s1; ls_n := ls_n s1; ls_w := ls_w s2; ls_h := ls_h s1 |}.
      destruct V1 as [A1 [A2 A3]]. destruct V2 as [B1 [B2 B3]].
      split; [unfold valid_set; simpl in *; auto|]. split; [reflexivity|].
      unfold ots_name. simpl. rewrite H1, H2. reflexivity.
    + intros [s [V [H1 H2]]].
      assert (E1 : Ok (fam_name (ls_shake s1), ls_n s1, ls_h s1) = Ok (fam_name (ls_shake s), ls_n s, ls_h s)).
      { rewrite <- (parse_lms_name s1 V1), <- (parse_lms_name s V), H1. reflexivity. }
      assert (E2 : Ok (fam_name (ls_shake s2), ls_n s2, ls_w s2) = Ok (fam_name (ls_shake s), ls_n s, ls_w s)).
      { rewrite <- (parse_ots_name s2 V2), <- (parse_ots_name s V), H2. reflexivity. }
      injection E1 as F1 N1 Hh. injection E2 as F2 N2 Hw. apply fam_name_inj in F1. apply fam_name_inj in F2.
      destruct V as [A1 [A2 A3]].
      split; [congruence|]. split; [congruence|]. split; [rewrite Hw; exact A2 | rewrite Hh; exact A3].
  - eexists. split; [reflexivity|]. split; [discriminate|]. intros [s [V [H1 H2]]].
    assert (existsb (String.eqb b) (map fst lmots_table) = true) by (apply known_ots; exists s; auto). congruence.
  - eexists. split; [reflexivity|]. split; [discriminate|]. intros [s [V [H1 H2]]].
    assert (existsb (String.eqb a) (map fst lms_table) = true) by (apply known_lms; exists s; auto). congruence.
  - eexists. split; [reflexivity|]. split; [discriminate|]. intros [s [V [H1 H2]]].
    assert (existsb (String.eqb a) (map fst lms_table) = true) by (apply known_lms; exists s; auto). congruence.
Qed.

Lemma concatM_total : forall A B (f : A -> result (list B)) (P : A -> Prop) l,
  (forall x, In x l -> exists y, f x = Ok y /\ (y = [] <-> P x)) ->
  exists y, concatM f l = Ok y /\ (y = [] <-> Forall P l).
Proof.
  induction l as [|x l IH]; intros H.
  - exists []. simpl. split; [reflexivity|]. split; auto.
  - destruct (H x (or_introl eq_refl)) as [y [E1 E2]]. destruct IH as [t [E3 E4]]; [intros; apply H; right; assumption|].
    exists (y ++ t). simpl. rewrite E1. cbn [bind]. rewrite E3. cbn [bind]. split; [reflexivity|].
    rewrite app_nil_iff, E2, E4, Forall_cons_iff. reflexivity.
Qed.
Lemma concatM_err : forall A B (f : A -> result (list B)) l e, concatM f l = Err e -> exists x, In x l /\ f x = Err e.
Proof.
  induction l as [|x l IH]; simpl; intros e H; [discriminate|]. destruct (f x) as [y|e'] eqn:E; cbn [bind] in H.
  - destruct (concatM f l) as [t|e'] eqn:E'; cbn [bind] in H; [discriminate|]. injection H as ->.
    destruct (IH e eq_refl) as [z [I F]]. exists z. auto.
  - injection H as ->. exists x. auto.
Qed.

Lemma configuration_total : forall levels, exists i, validate_configuration levels = Ok i /\
  (i = [] <-> (1 <= length levels <= 8)%nat /\ Forall (fun p => exists s, valid_set s /\ names_level s p) levels).
Proof.
  intros levels. unfold validate_configuration.
  destruct (concatM_total _ _ (fun p => validate_pair (fst p) (snd p))
    (fun p => exists s, valid_set s /\ fst p = lms_name s /\ snd p = ots_name s) (normalise levels)) as [t [E1 E2]].
  { intros p _. apply validate_pair_total. }
  rewrite E1. cbn [bind]. eexists. split; [reflexivity|].
  unfold normalise in *. rewrite map_length, app_nil_iff, when_nil, negb_false_iff, andb_true_iff, Nat.leb_le, Nat.leb_le, E2.
  rewrite Forall_map. unfold names_level. simpl. reflexivity.
Qed.

Definition level_set (p : string * string) (s : lset) : Prop := valid_set s /\ names_level s p.
Lemma level_parse : forall p s, level_set p s ->
  parse_lms (CompLoadModel.lower (fst p)) = Ok (fam_name (ls_shake s), ls_n s, ls_h s) /\
  parse_lmots (CompLoadModel.lower (snd p)) = Ok (fam_name (ls_shake s), ls_n s, ls_w s).
Proof.
  intros p s [V [H1 H2]]. rewrite H1, H2. split; [apply parse_lms_name | apply parse_ots_name]; exact V.
Qed.
Lemma level_set_unique : forall p s t, level_set p s -> level_set p t -> s = t.
Proof.
  intros p s t H1 H2. pose proof (level_parse p s H1) as [A1 A2]. pose proof (level_parse p t H2) as [B1 B2].
  rewrite A1 in B1. rewrite A2 in B2. injection B1 as F N Hh. injection B2 as _ _ W. apply fam_name_inj in F.
  destruct s, t; simpl in *; congruence.
Qed.

Lemma uniform_checks : forall p0 r s0, level_set p0 s0 -> Forall (fun p => exists s, level_set p s) r ->
  exists a b c, check_family (p0 :: r) = Ok a /\ check_digest (p0 :: r) = Ok b /\ check_window (p0 :: r) = Ok c /\
  (a ++ b ++ c = [] <-> Forall (fun p => exists s, level_set p s /\ ls_shake s = ls_shake s0 /\ ls_n s = ls_n s0 /\ ls_w s = ls_w s0) r).
Proof.
  intros p0 r s0 H0 H. pose proof (level_parse p0 s0 H0) as [A1 A2].
  unfold check_family, check_digest, check_window. unfold normalise. cbn [map fst snd].
  rewrite A1, A2. cbn [bind].
  assert (HF : exists a, concatM (fun p : string * string => let! (f, _, _) := parse_lms (fst p) in
                 Ok (when (negb (String.eqb f (fam_name (ls_shake s0)))) LevelFamily))
                 (map (fun p => (CompLoadModel.lower (fst p), CompLoadModel.lower (snd p))) r) = Ok a /\
                 (a = [] <-> Forall (fun p => exists s, level_set p s /\ ls_shake s = ls_shake s0) r)).
  { destruct (concatM_total _ _ (fun p : string * string => let! (f, _, _) := parse_lms (fst p) in
                 Ok (when (negb (String.eqb f (fam_name (ls_shake s0)))) LevelFamily))
       (fun q => exists s, valid_set s /\ fst q = lms_name s /\ snd q = ots_name s /\ ls_shake s = ls_shake s0)
       (map (fun p => (CompLoadModel.lower (fst p), CompLoadModel.lower (snd p))) r)) as [a [E1 E2]].
    - intros q Hq. apply in_map_iff in Hq. destruct Hq as [p [<- Ip]]. rewrite Forall_forall in H.
      destruct (H p Ip) as [s Hs]. pose proof (level_parse p s Hs) as [B1 B2]. cbn [fst snd]. rewrite B1. cbn [bind].
      eexists. split; [reflexivity|]. rewrite when_nil, negb_false_iff, fam_eqb, Bool.eqb_true_iff. split.
      + intros E. exists s. destruct Hs as [V [N1 N2]]. auto.
      + intros [s' [V [N1 [N2 E]]]]. rewrite <- E. f_equal. apply (level_set_unique p); [exact Hs|]. split; [exact V | split; assumption].
    - exists a. split; [exact E1|]. rewrite E2, Forall_map. cbn [fst snd]. unfold level_set, names_level.
      split; apply Forall_impl; intros p [s Hs]; exists s; tauto. }
  assert (HD : exists a, concatM (fun p : string * string => let! (_, n, _) := parse_lmots (snd p) in
                 Ok (when (negb (n =? ls_n s0)) LevelDigest))
                 (map (fun p => (CompLoadModel.lower (fst p), CompLoadModel.lower (snd p))) r) = Ok a /\
                 (a = [] <-> Forall (fun p => exists s, level_set p s /\ ls_n s = ls_n s0) r)).
  { destruct (concatM_total _ _ (fun p : string * string => let! (_, n, _) := parse_lmots (snd p) in
                 Ok (when (negb (n =? ls_n s0)) LevelDigest))
       (fun q => exists s, valid_set s /\ fst q = lms_name s /\ snd q = ots_name s /\ ls_n s = ls_n s0)
       (map (fun p => (CompLoadModel.lower (fst p), CompLoadModel.lower (snd p))) r)) as [a [E1 E2]].
    - intros q Hq. apply in_map_iff in Hq. destruct Hq as [p [<- Ip]]. rewrite Forall_forall in H.
      destruct (H p Ip) as [s Hs]. pose proof (level_parse p s Hs) as [B1 B2]. cbn [fst snd]. rewrite B2. cbn [bind].
      eexists. split; [reflexivity|]. rewrite when_nil, negb_false_iff, Z.eqb_eq. split.
      + intros E. exists s. destruct Hs as [V [N1 N2]]. auto.
      + intros [s' [V [N1 [N2 E]]]]. rewrite <- E. f_equal. apply (level_set_unique p); [exact Hs|]. split; [exact V | split; assumption].
    - exists a. split; [exact E1|]. rewrite E2, Forall_map. cbn [fst snd]. unfold level_set, names_level.
      split; apply Forall_impl; intros p [s Hs]; exists s; tauto. }
  assert (HW : exists a, concatM (fun p : string * string => let! (_, _, w) := parse_lmots (snd p) in
                 Ok (when (negb (w =? ls_w s0)) LevelWindow))
                 (map (fun p => (CompLoadModel.lower (fst p), CompLoadModel.lower (snd p))) r) = Ok a /\
                 (a = [] <-> Forall (fun p => exists s, level_set p s /\ ls_w s = ls_w s0) r)).
  { destruct (concatM_total _ _ (fun p : string * string => let! (_, _, w) := parse_lmots (snd p) in
                 Ok (when (negb (w =? ls_w s0)) LevelWindow))
       (fun q => exists s, valid_set s /\ fst q = lms_name s /\ snd q = ots_name s /\ ls_w s = ls_w s0)
       (map (fun p => (CompLoadModel.lower (fst p), CompLoadModel.lower (snd p))) r)) as [a [E1 E2]].
    - intros q Hq. apply in_map_iff in Hq. destruct Hq as [p [<- Ip]]. rewrite Forall_forall in H.
      destruct (H p Ip) as [s Hs]. pose proof (level_parse p s Hs) as [B1 B2]. cbn [fst snd]. rewrite B2. cbn [bind].
      eexists. split; [reflexivity|]. rewrite when_nil, negb_false_iff, Z.eqb_eq. split.
      + intros E. exists s. destruct Hs as [V [N1 N2]]. auto.
      + intros [s' [V [N1 [N2 E]]]]. rewrite <- E. f_equal. apply (level_set_unique p); [exact Hs|]. split; [exact V | split; assumption].
    - exists a. split; [exact E1|]. rewrite E2, Forall_map. cbn [fst snd]. unfold level_set, names_level.
      split; apply Forall_impl; intros p [s Hs]; exists s; tauto. }
  destruct HF as [a [Ea Pa]]. destruct HD as [b [Eb Pb]]. destruct HW as [c [Ec Pc]].
  exists a, b, c. split; [exact Ea|]. split; [exact Eb|]. split; [exact Ec|].
  rewrite !app_nil_iff, Pa, Pb, Pc, !Forall_forall. split.
  - intros [Q1 [Q2 Q3]] p Ip. destruct (Q1 p Ip) as [s1 [L1 E1]]. destruct (Q2 p Ip) as [s2 [L2 E2]]. destruct (Q3 p Ip) as [s3 [L3 E3]].
    rewrite (level_set_unique p s2 s1 L2 L1) in *. rewrite (level_set_unique p s3 s1 L3 L1) in *. exists s1. auto.
  - intros Q. repeat split; intros p Ip; destruct (Q p Ip) as [s [L1 [E1 [E2 E3]]]]; exists s; auto.
Qed.

Lemma levels_exact : forall levels, validate_hss_key_levels levels false = Ok tt <->
  (1 <= length levels <= 8)%nat /\
  exists shake n w, Forall (fun p => exists h, valid_set {| ls_shake := shake; ls_n := n; ls_w := w; ls_h := h |} /\
     names_level {| ls_shake := shake; ls_n := n; ls_w := w; ls_h := h |} p) levels.
Proof.
  intros levels. unfold validate_hss_key_levels.
  destruct (configuration_total levels) as [i [E1 E2]]. rewrite E1. cbn [bind negb andb].
  destruct levels as [|p0 r].
  - simpl length. cbn [Nat.ltb Nat.leb bind app]. split.
    + intros H. destruct i; [|discriminate]. destruct (proj1 E2 eq_refl) as [X _]. simpl in X. lia.
    + intros [X _]. simpl in X. lia.
  - destruct i as [|x i].
    + destruct (proj1 E2 eq_refl) as [HL HA]. inversion HA as [|? ? [s0 H0] HR]; subst.
      destruct (uniform_checks p0 r s0 H0 HR) as [a [b [c [Ca [Cb [Cc HP]]]]]].
      assert (EJ : (if (1 <? length (p0 :: r))%nat
          then let! a0 := check_family (p0 :: r) in let! b0 := check_digest (p0 :: r) in let! c0 := check_window (p0 :: r) in Ok (a0 ++ b0 ++ c0)
          else Ok []) = Ok (if (1 <? length (p0 :: r))%nat then a ++ b ++ c else [])).
      { destruct (1 <? length (p0 :: r))%nat; [|reflexivity]. rewrite Ca, Cb, Cc. reflexivity. }
      rewrite EJ. cbn [bind app].
      assert (HR' : (if (1 <? length (p0 :: r))%nat then a ++ b ++ c else []) = [] <->
        Forall (fun p => exists s, level_set p s /\ ls_shake s = ls_shake s0 /\ ls_n s = ls_n s0 /\ ls_w s = ls_w s0) r).
      { destruct r as [|p1 r]; [simpl; split; auto|]. change (1 <? length (p0 :: p1 :: r))%nat with true. exact HP. }
      split.
      * intros H. destruct (if (1 <? length (p0 :: r))%nat then a ++ b ++ c else []) eqn:EE; [|discriminate].
        split; [exact HL|]. exists (ls_shake s0), (ls_n s0), (ls_w s0). constructor.
        -- exists (ls_h s0). destruct s0; exact H0.
        -- eapply Forall_impl; [|exact (proj1 HR' eq_refl)]. intros p [s [Hs [F1 [F2 F3]]]]. exists (ls_h s).
           rewrite <- F1, <- F2, <- F3. destruct s; exact Hs.
      * intros [_ [shake [n [w HF]]]]. inversion HF as [|? ? [h Hh] HT]; subst.
        assert (E : s0 = {| ls_shake := shake; ls_n := n; ls_w := w; ls_h := h |}) by (apply (level_set_unique p0); assumption).
        rewrite (proj2 HR'); [reflexivity|]. eapply Forall_impl; [|exact HT]. intros p [h' Hp].
        eexists. split; [exact Hp|]. rewrite E. simpl. auto.
    + split.
      * intros H. exfalso. destruct (if (1 <? length (p0 :: r))%nat then _ else _); cbn [bind app] in H; discriminate.
      * intros [HL [shake [n [w HF]]]]. assert (X : x :: i = []); [|discriminate]. apply E2. split; [exact HL|].
        eapply Forall_impl; [|exact HF]. intros p [h Hp]. eexists. exact Hp.
Qed.

Lemma levels_lw : forall levels, validate_hss_key_levels levels true = Ok tt <->
  (1 <= length levels <= 8)%nat /\ Forall (fun p => exists s, valid_set s /\ names_level s p) levels.
Proof.
  intros levels. unfold validate_hss_key_levels. destruct (configuration_total levels) as [i [E1 E2]].
  rewrite E1. cbn [bind negb andb]. rewrite app_nil_r, <- E2. destruct i; split; congruence.
Qed.

Lemma levels_error : forall levels b e, validate_hss_key_levels levels b = Err e -> e = EInvalidKeyData.
Proof.
  intros levels b e. unfold validate_hss_key_levels. destruct (configuration_total levels) as [i [E1 _]]. rewrite E1. cbn [bind].
  assert (P1 : forall x e', parse_lms x = Err e' -> e' = EInvalidKeyData).
  { unfold parse_lms. intros x e' H. destruct (re_lookup lms_table x); simpl in H; congruence. }
  assert (P2 : forall x e', parse_lmots x = Err e' -> e' = EInvalidKeyData).
  { unfold parse_lmots. intros x e' H. destruct (re_lookup lmots_table x); simpl in H; congruence. }
  assert (C1 : forall e', check_family levels = Err e' -> e' = EInvalidKeyData).
  { unfold check_family. intros e' H. destruct (normalise levels) as [|[a b0] r]; [discriminate|].
    destruct (parse_lms a) as [[[f n] h]|] eqn:E; cbn [bind] in H; [|injection H as <-; eapply P1; exact E].
    apply concatM_err in H. destruct H as [p [_ H]]. destruct (parse_lms (fst p)) as [[[f' n'] h']|] eqn:E'; cbn [bind] in H; [discriminate|].
    injection H as <-. eapply P1; exact E'. }
  assert (C2 : forall e', check_digest levels = Err e' -> e' = EInvalidKeyData).
  { unfold check_digest. intros e' H. destruct (normalise levels) as [|[a b0] r]; [discriminate|].
    destruct (parse_lmots b0) as [[[f n] h]|] eqn:E; cbn [bind] in H; [|injection H as <-; eapply P2; exact E].
    apply concatM_err in H. destruct H as [p [_ H]]. destruct (parse_lmots (snd p)) as [[[f' n'] h']|] eqn:E'; cbn [bind] in H; [discriminate|].
    injection H as <-. eapply P2; exact E'. }
  assert (C3 : forall e', check_window levels = Err e' -> e' = EInvalidKeyData).
  { unfold check_window. intros e' H. destruct (normalise levels) as [|[a b0] r]; [discriminate|].
    destruct (parse_lmots b0) as [[[f n] h]|] eqn:E; cbn [bind] in H; [|injection H as <-; eapply P2; exact E].
    apply concatM_err in H. destruct H as [p [_ H]]. destruct (parse_lmots (snd p)) as [[[f' n'] h']|] eqn:E'; cbn [bind] in H; [discriminate|].
    injection H as <-. eapply P2; exact E'. }
  destruct (negb b && (1 <? length levels)%nat); cbn [bind].
  - destruct (check_family levels) as [x|e1] eqn:E3; cbn [bind]; [|intros H; injection H as <-; apply C1; reflexivity].
    destruct (check_digest levels) as [y|e1] eqn:E4; cbn [bind]; [|intros H; injection H as <-; apply C2; reflexivity].
    destruct (check_window levels) as [z|e1] eqn:E5; cbn [bind]; [|intros H; injection H as <-; apply C3; reflexivity].
    destruct (i ++ x ++ y ++ z); congruence.
  - destruct (i ++ []); congruence.
Qed.

(** ** Codes *)
Lemma lms_codes_tab : forallb (fun s => match name_by_code lms_codes (be 4 (lms_code s)) with
  | Some a => String.eqb a (lms_name s) | None => false end) lms_sets = true.
Proof. vm_compute. reflexivity. Qed.
Lemma ots_codes_tab : forallb (fun s => match name_by_code lmots_codes (be 4 (ots_code s)) with
  | Some a => String.eqb a (ots_name s) | None => false end) ots_sets = true.
Proof. vm_compute. reflexivity. Qed.
Lemma lms_by_code : forall s, valid_set s -> name_by_code lms_codes (be 4 (lms_code s)) = Some (lms_name s).
Proof.
  intros s V. pose proof lms_codes_tab as T. rewrite forallb_forall in T. specialize (T _ (in_lms s V)).
  change (lms_name (with_w 1 s)) with (lms_name s) in T. change (lms_code (with_w 1 s)) with (lms_code s) in T.
  destruct (name_by_code lms_codes (be 4 (lms_code s))); [|discriminate]. apply String.eqb_eq in T. congruence.
Qed.
Lemma ots_by_code : forall s, valid_set s -> name_by_code lmots_codes (be 4 (ots_code s)) = Some (ots_name s).
Proof.
  intros s V. pose proof ots_codes_tab as T. rewrite forallb_forall in T. specialize (T _ (in_ots s V)).
  change (ots_name (with_h 5 s)) with (ots_name s) in T. change (ots_code (with_h 5 s)) with (ots_code s) in T.
  destruct (name_by_code lmots_codes (be 4 (ots_code s))); [|discriminate]. apply String.eqb_eq in T. congruence.
Qed.
Lemma lms_codes_known : forallb (fun p => existsb (fun s => String.eqb (fst p) (lms_name s) && (snd p =? lms_code s)) lms_sets) lms_codes = true.
Proof. vm_compute. reflexivity. Qed.
Lemma ots_codes_known : forallb (fun p => existsb (fun s => String.eqb (fst p) (ots_name s) && (snd p =? ots_code s)) ots_sets) lmots_codes = true.
Proof. vm_compute. reflexivity. Qed.
Lemma lms_of_code : forall c a, name_by_code lms_codes c = Some a -> exists s, In s lms_sets /\ c = be 4 (lms_code s) /\ a = lms_name s.
Proof.
  unfold name_by_code. intros c a H. destruct (find _ lms_codes) as [p|] eqn:E; [|discriminate]. injection H as <-.
  apply find_some in E. destruct E as [I E]. apply bytes_eqb_eq in E. pose proof lms_codes_known as T. rewrite forallb_forall in T.
  specialize (T p I). apply existsb_exists in T. destruct T as [s [Is T]]. apply andb_true_iff in T. destruct T as [T1 T2].
  apply String.eqb_eq in T1. apply Z.eqb_eq in T2. exists s. split; [exact Is|]. split; congruence.
Qed.
Lemma ots_of_code : forall c a, name_by_code lmots_codes c = Some a -> exists s, In s ots_sets /\ c = be 4 (ots_code s) /\ a = ots_name s.
Proof.
  unfold name_by_code. intros c a H. destruct (find _ lmots_codes) as [p|] eqn:E; [|discriminate]. injection H as <-.
  apply find_some in E. destruct E as [I E]. apply bytes_eqb_eq in E. pose proof ots_codes_known as T. rewrite forallb_forall in T.
  specialize (T p I). apply existsb_exists in T. destruct T as [s [Is T]]. apply andb_true_iff in T. destruct T as [T1 T2].
  apply String.eqb_eq in T1. apply Z.eqb_eq in T2. exists s. split; [exact Is|]. split; congruence.
Qed.
Lemma mixed_names : forallb (fun a => forallb (fun b =>
  negb (existsb (String.eqb ("hss_" ++ lms_name a ++ "_" ++ ots_name b)) (map set_name all_sets)) ||
  (Bool.eqb (ls_shake a) (ls_shake b) && (ls_n a =? ls_n b))) ots_sets) lms_sets = true.
Proof. vm_compute. reflexivity. Qed.

Lemma build_name : forall lms lmots name, build_hss_name_from_codes lms lmots = Ok name <->
  exists s, valid_set s /\ lms = be 4 (lms_code s) /\ lmots = be 4 (ots_code s) /\ name = set_name s.
Proof.
  intros lms lmots name. unfold build_hss_name_from_codes. split.
  - intros H. destruct (name_by_code lms_codes lms) as [a|] eqn:Ea; cbn [of_opt bind] in H; [|discriminate].
    destruct (name_by_code lmots_codes lmots) as [b|] eqn:Eb; cbn [of_opt bind] in H; [|discriminate].
    destruct (hss_details ("hss_" ++ a ++ "_" ++ b)) as [d|] eqn:Ed; cbn [of_opt bind] in H; [|discriminate].
    apply lms_of_code in Ea. destruct Ea as [s1 [I1 [-> ->]]]. apply ots_of_code in Eb. destruct Eb as [s2 [I2 [-> ->]]].
    pose proof mixed_names as T. rewrite forallb_forall in T. specialize (T s1 I1). rewrite forallb_forall in T. specialize (T s2 I2).
    apply hss_details_some in Ed. destruct Ed as [s3 [V3 [N3 _]]].
    assert (X : existsb (String.eqb ("hss_" ++ lms_name s1 ++ "_" ++ ots_name s2)) (map set_name all_sets) = true).
    { apply existsb_exists. exists (set_name s3). split; [apply in_map, in_all, V3 | apply String.eqb_eq; exact N3]. }
    rewrite X in T. cbn [negb orb] in T. apply andb_true_iff in T. destruct T as [T1 T2]. apply Bool.eqb_prop in T1. apply Z.eqb_eq in T2.
    destruct (lms_sets_valid s1 I1) as [[A1 [A2 A3]] _]. destruct (ots_sets_valid s2 I2) as [[B1 [B2 B3]] _].
    exists {| ls_shake := ls_shake s1; ls_n := ls_n s1; ls_w := ls_w s2; ls_h := ls_h s1 |}.
    split; [unfold valid_set; simpl in *; auto|]. split; [reflexivity|]. split.
    + unfold ots_code. simpl. rewrite T1, T2. reflexivity.
    + injection H as <-. unfold set_name, ots_name. simpl. rewrite T1, T2. reflexivity.
  - intros [s [V [-> [-> ->]]]]. rewrite (lms_by_code s V), (ots_by_code s V). cbn [of_opt bind].
    change ("hss_" ++ lms_name s ++ "_" ++ ots_name s)%string with (set_name s). rewrite (hss_details_ok s V). reflexivity.
Qed.
Lemma build_name_err : forall lms lmots e, build_hss_name_from_codes lms lmots = Err e -> e = EInvalidKeyData.
Proof.
  intros lms lmots e H. unfold build_hss_name_from_codes in H.
  destruct (name_by_code lms_codes lms); cbn [of_opt bind] in H; [|congruence].
  destruct (name_by_code lmots_codes lmots); cbn [of_opt bind] in H; [|congruence].
  destruct (hss_details _); cbn [of_opt bind] in H; congruence.
Qed.

Lemma hss_name_tab : forallb (fun s => String.eqb (hss_name (set_name s)) (set_name s)) all_sets = true.
Proof. vm_compute. reflexivity. Qed.
Lemma hss_name_set : forall s, valid_set s -> hss_name (set_name s) = set_name s.
Proof.
  intros s V. pose proof hss_name_tab as T. rewrite forallb_forall in T. apply in_all in V. specialize (T s V).
  apply String.eqb_eq in T. exact T.
Qed.

(** ** Public keys *)
Lemma public_key_exact : forall L raw K, hss_from_public_bytes L raw = Ok K <->
  exists s lv, valid_set s /\ hl_pub L raw = Some (lv, be 4 (lms_code s), be 4 (ots_code s)) /\
    Z.of_nat (length raw) = 28 + ls_n s /\
    K = {| hp_name := set_name s; hp_raw := raw; hp_levels := lv; hp_lms := be 4 (lms_code s); hp_lmots := be 4 (ots_code s) |}.
Proof.
  intros L raw K. unfold hss_from_public_bytes, hss_public. split.
  - intros H. destruct (hl_pub L raw) as [[[lv lms] lmots]|] eqn:E; cbn [of_opt bind] in H; [|discriminate].
    destruct (build_hss_name_from_codes lms lmots) as [name|] eqn:En; cbn [bind] in H; [|discriminate].
    apply build_name in En. destruct En as [s [V [-> [-> ->]]]]. rewrite (hss_name_set s V) in H.
    rewrite (hss_details_ok s V) in H. cbn [of_opt bind] in H.
    destruct (guard (Z.of_nat (length raw) =? 4 + d_pub_len (spec_details s)) EInvalidKeyData) as [[]|] eqn:G; cbn [bind] in H; [|discriminate].
    apply guard_ok in G. apply Z.eqb_eq in G.
    rewrite String.eqb_refl in H. cbn [guard bind] in H.
    exists s, lv. split; [exact V|]. split; [reflexivity|]. split; [change (d_pub_len (spec_details s)) with (8 + 16 + ls_n s) in G; lia|]. congruence.
  - intros [s [lv [V [E [HL ->]]]]]. rewrite E. cbn [of_opt bind].
    assert (B : build_hss_name_from_codes (be 4 (lms_code s)) (be 4 (ots_code s)) = Ok (set_name s)) by (apply build_name; exists s; auto).
    rewrite B. cbn [bind]. rewrite (hss_name_set s V), (hss_details_ok s V). cbn [of_opt bind].
    change (d_pub_len (spec_details s)) with (8 + 16 + ls_n s).
    replace (Z.of_nat (length raw) =? 4 + (8 + 16 + ls_n s)) with true by (symmetry; apply Z.eqb_eq; lia).
    cbn [guard bind]. rewrite String.eqb_refl. reflexivity.
Qed.

Lemma lower_names_tab : forallb (fun s => String.eqb (CompLoadModel.lower (lms_name s)) (lms_name s) &&
  String.eqb (CompLoadModel.lower (ots_name s)) (ots_name s)) all_sets = true.
Proof. vm_compute. reflexivity. Qed.
Lemma names_level_self : forall s, valid_set s -> names_level s (lms_name s, ots_name s).
Proof.
  intros s V. pose proof lower_names_tab as T. rewrite forallb_forall in T. apply in_all in V. specialize (T s V).
  apply andb_true_iff in T. destruct T as [T1 T2]. apply String.eqb_eq in T1. apply String.eqb_eq in T2. split; assumption.
Qed.

Lemma key_levels : forall L raw K b, hss_from_public_bytes L raw = Ok K ->
  (validate_hss_key K b = Ok tt <-> 1 <= hp_levels K <= 8).
Proof.
  intros L raw K b H. apply public_key_exact in H. destruct H as [s [lv [V [_ [_ ->]]]]].
  unfold validate_hss_key, get_level_names. simpl hp_lms. simpl hp_lmots. simpl hp_levels.
  rewrite (lms_by_code s V), (ots_by_code s V). cbn [of_opt bind].
  assert (HN : (1 <= length (repeat (lms_name s, ots_name s) (Z.to_nat lv)) <= 8)%nat <-> 1 <= lv <= 8) by (rewrite repeat_length; lia).
  destruct b.
  - rewrite levels_lw, HN. split; [intros [X _]; exact X|]. intros X. split; [exact X|]. apply Forall_forall. intros p Ip.
    apply repeat_spec in Ip. subst p. exists s. split; [exact V | apply names_level_self; exact V].
  - rewrite levels_exact, HN. split; [intros [X _]; exact X|]. intros X. split; [exact X|].
    exists (ls_shake s), (ls_n s), (ls_w s). apply Forall_forall. intros p Ip. apply repeat_spec in Ip. subst p.
    exists (ls_h s). destruct s. split; [exact V | apply names_level_self; exact V].
Qed.

(** ** Sizes of encodings *)
Lemma chain_pos : forall s, valid_set s -> 0 <= chain_count s.
Proof.
  apply (all_sets_forall (fun s => 0 <= chain_count s)). apply Forall_forall. intros s I.
  assert (T : forallb (fun s => 0 <=? chain_count s) all_sets = true) by (vm_compute; reflexivity).
  rewrite forallb_forall in T. apply Z.leb_le. apply T. exact I.
Qed.
Lemma set_pos : forall s, valid_set s -> 0 < ls_n s /\ 0 < ls_h s /\ 0 < ls_w s.
Proof. intros s [H1 [H2 H3]]. simpl in *. intuition lia. Qed.
Lemma sig_wire_len : forall g, wf_sig g -> Z.of_nat (length (sig_wire g)) = d_sig_len (spec_details (s_set g)).
Proof.
  intros g [V [_ [H1 H2]]]. unfold sig_wire. rewrite !app_length, !be_len, H1, H2. unfold nlen.
  change (d_sig_len (spec_details (s_set g))) with
    (4 + (4 + ls_n (s_set g) * (chain_count (s_set g) + 1)) + 4 + ls_h (s_set g) * ls_n (s_set g)).
  pose proof (chain_pos _ V) as C. pose proof (set_pos _ V) as P. generalize dependent (chain_count (s_set g)). intros c _ C.
  rewrite !Nat2Z.inj_add, !Z2Nat.id by nia. change (Z.of_nat 4) with 4. lia.
Qed.
Lemma pub_wire_len : forall p, wf_pub p -> Z.of_nat (length (pub_wire p)) = d_pub_len (spec_details (p_set p)).
Proof.
  intros p [V [H1 H2]]. unfold pub_wire. rewrite !app_length, !be_len, H1, H2. unfold nlen.
  change (d_pub_len (spec_details (p_set p))) with (8 + 16 + ls_n (p_set p)).
  pose proof (set_pos _ V). lia.
Qed.
Lemma ups_len : forall s l, Forall (fun p => wf_sig (fst p) /\ wf_pub (snd p)) l ->
  Forall (fun p => s_set (fst p) = s /\ p_set (snd p) = s) l ->
  Z.of_nat (length (concat (map (fun p => sig_wire (fst p) ++ pub_wire (snd p)) l))) =
  Z.of_nat (length l) * (d_sig_len (spec_details s) + d_pub_len (spec_details s)).
Proof.
  induction l as [|p l IH]; intros H1 H2; [simpl; lia|]. inversion H1 as [|? ? [A1 A2] A3]; subst. inversion H2 as [|? ? [B1 B2] B3]; subst.
  cbn [map concat]. rewrite !app_length, !Nat2Z.inj_add, IH by assumption. rewrite (sig_wire_len _ A1), (pub_wire_len _ A2).
  rewrite B2. cbn [length]. rewrite Nat2Z.inj_succ. ring.
Qed.
Lemma wire_len : forall s g, wf_hss g -> uniform s g -> Z.of_nat (length (hss_wire g)) = hss_signature_length (spec_details s) (levels_of g).
Proof.
  intros s g [HL [H1 H2]] [U1 U2]. unfold hss_wire. rewrite !app_length, be_len, !Nat2Z.inj_add, (ups_len s) by assumption.
  rewrite (sig_wire_len _ H2), U2. unfold hss_signature_length, levels_of.
  replace (Z.max (Z.of_nat (length (h_ups g)) + 1 - 1) 0) with (Z.of_nat (length (h_ups g))) by lia. lia.
Qed.

(** ** The index *)
Lemma radix_acc : forall r qs acc, Forall (fun q => q < r) qs ->
  total_index r qs acc = Ok (acc * r ^ Z.of_nat (length qs) + radix r qs).
Proof.
  induction qs as [|q qs IH]; intros acc H; simpl total_index.
  - simpl length. simpl radix. change (r ^ Z.of_nat 0) with 1. f_equal. lia.
  - inversion H; subst. replace (q >=? r) with false by (symmetry; rewrite Z.geb_leb; apply Z.leb_gt; assumption).
    rewrite IH by assumption. f_equal. simpl radix. simpl length. rewrite Nat2Z.inj_succ, Z.pow_succ_r by lia. ring.
Qed.
Lemma total_err : forall r qs acc, ~ Forall (fun q => q < r) qs -> total_index r qs acc = Err EInvalidSignature.
Proof.
  induction qs as [|q qs IH]; intros acc H; [exfalso; apply H; constructor|]. simpl total_index.
  destruct (q >=? r) eqn:E; [reflexivity|]. apply IH. intros F. apply H. constructor; [|exact F].
  rewrite Z.geb_leb in E. apply Z.leb_gt in E. exact E.
Qed.

Lemma leaves_len : forall g, Z.of_nat (length (leaves g)) = levels_of g.
Proof. intros. unfold leaves, levels_of. rewrite app_length, map_length. simpl length. lia. Qed.
Lemma index_exact : forall L s g levels, reads_signatures L -> valid_set s -> wf_hss g ->
  compute_hss_signature_index L (hss_wire g) (set_name s) levels =
  if forallb (fun q => q <? 2 ^ ls_h s) (leaves g) && (levels =? levels_of g)
  then Ok (radix (2 ^ ls_h s) (leaves g)) else Err EInvalidSignature.
Proof.
  intros L s g levels R V W. unfold compute_hss_signature_index. rewrite (hss_details_ok s V), (R g W). cbn [of_opt bind].
  fold (leaves g). rewrite leaves_len, Z.eqb_refl. cbn [guard bind]. change (d_max (spec_details s)) with (2 ^ ls_h s).
  destruct (forallb (fun q => q <? 2 ^ ls_h s) (leaves g)) eqn:F.
  - rewrite radix_acc; [|apply Forall_forall; rewrite forallb_forall in F; intros q I; apply Z.ltb_lt; apply F; exact I].
    cbn [bind andb]. destruct (levels =? levels_of g); [|reflexivity]. cbn [guard bind]. reflexivity.
  - rewrite total_err; [reflexivity|]. intros FA. rewrite Forall_forall in FA.
    assert (X : forallb (fun q => q <? 2 ^ ls_h s) (leaves g) = true); [|congruence]. apply forallb_forall. intros q I.
    apply Z.ltb_lt. apply FA. exact I.
Qed.

Lemma radix_range : forall r qs, 0 < r -> Forall (fun q => 0 <= q < r) qs -> 0 <= radix r qs < r ^ Z.of_nat (length qs).
Proof.
  induction qs as [|q qs IH]; intros Hr H; [simpl radix; simpl length; change (r ^ Z.of_nat 0) with 1; lia|].
  inversion H; subst. specialize (IH Hr ltac:(assumption)). simpl radix. simpl length. rewrite Nat2Z.inj_succ, Z.pow_succ_r by lia. nia.
Qed.
Lemma radix_inj : forall r qs qs', 0 < r -> length qs = length qs' -> Forall (fun q => 0 <= q < r) qs -> Forall (fun q => 0 <= q < r) qs' ->
  radix r qs = radix r qs' -> qs = qs'.
Proof.
  induction qs as [|q qs IH]; intros [|q' qs'] Hr HL H H' E; try discriminate; [reflexivity|].
  inversion H; subst. inversion H'; subst. simpl in HL. injection HL as HL. simpl radix in E. rewrite HL in E.
  pose proof (radix_range r qs Hr ltac:(assumption)) as R1. pose proof (radix_range r qs' Hr ltac:(assumption)) as R2. rewrite HL in R1.
  set (P := r ^ Z.of_nat (length qs')) in *.
  assert (q = q').
  { assert (D : (q * P + radix r qs) / P = q) by (rewrite Z.div_add_l by lia; rewrite Z.div_small by lia; lia).
    assert (D' : (q' * P + radix r qs') / P = q') by (rewrite Z.div_add_l by lia; rewrite Z.div_small by lia; lia). congruence. }
  subst q'. f_equal. apply IH; auto. lia.
Qed.
Lemma radix_zero : forall r A (l : list A), radix r (map (fun _ => 0) l) = 0.
Proof. induction l; simpl; [reflexivity | rewrite IHl; lia]. Qed.
Lemma advance_radix : forall r qs, 0 < r -> Forall (fun q => 0 <= q < r) qs ->
  match advance r qs with
  | Some qs' => radix r qs' = radix r qs + 1 /\ length qs' = length qs /\ Forall (fun q => 0 <= q < r) qs'
  | None => radix r qs = r ^ Z.of_nat (length qs) - 1
  end.
Proof.
  induction qs as [|q qs IH]; intros Hr H.
  - simpl. change (r ^ Z.of_nat 0) with 1. reflexivity.
  - inversion H; subst. specialize (IH Hr ltac:(assumption)). simpl advance. destruct (advance r qs) as [t|].
    + destruct IH as [E [HL F]]. simpl radix. simpl length. rewrite HL, E. split; [lia|]. split; [reflexivity|]. constructor; assumption.
    + destruct (q + 1 <? r) eqn:E.
      * apply Z.ltb_lt in E. simpl radix. rewrite radix_zero, map_length. simpl length. rewrite IH, map_length. split; [lia|]. split; [reflexivity|].
        constructor; [lia|]. apply Forall_forall. intros x I. apply in_map_iff in I. destruct I as [y [<- _]]. lia.
      * apply Z.ltb_ge in E. simpl radix. simpl length. rewrite Nat2Z.inj_succ, Z.pow_succ_r, IH by lia. replace q with (r - 1) by lia. ring.
Qed.
