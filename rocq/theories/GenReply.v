(** Proofs: what the Mock CA answers, entry by entry. *)
From Coq Require Import String.
From Verif Require Import Prelude PreludeFacts PyStr ProtMac ChamProofs GenModel GenSpec GenProofs GenHandler.
Open Scope string_scope.
Open Scope Z_scope.
Open Scope list_scope.
Local Notation length := List.length.

Ltac pick n := match n with O => left | Datatypes.S ?k => right; pick k end.

Lemma kem_out L m s s' e i :
  h_kem L m s e = (s', Ok i) ->
  iv e = None /\ exists c r k ss ct o, extra m = c :: r /\ l_key L c = Ok k /\ l_kem_pub L k = true /\ l_encaps L k = Ok (ss, ct) /\
       l_kem_oid L k = Ok o /\ txid m <> None /\ iv i = Some (enc (l_kem L) (o, ct)).
Proof.
  intros H. unfold h_kem in H.
  match type of H with match ?r with _ => _ end = _ => destruct r as [[t [ss i']]|] eqn:R; [|discriminate] end.
  step R g G. apply guard_iff, is_set_false in G. split; [exact G|].
  destruct (extra m) as [|c r]; [discriminate|]. step R k K. step R g' G'. apply guard_iff in G'. step R p P.
  unfold kem_entry in P. step P sc Q. step P o HO. destruct (txid m) as [t'|]; [|discriminate].
  assert (X0 : p = (ss, i')) by congruence. assert (i = i') by congruence. subst p i'. injection P as <- <-.
  exists c, r, k, (fst sc), (snd sc), o. repeat split; try assumption; try congruence. now rewrite <- surjective_pairing.
Qed.

Lemma kem_in L m s e c r k ss ct o :
  iv e = None -> extra m = c :: r -> l_key L c = Ok k -> l_kem_pub L k = true -> l_encaps L k = Ok (ss, ct) ->
  l_kem_oid L k = Ok o -> txid m <> None ->
  exists s', h_kem L m s e = (s', Ok {| it := id_KemCiphertextInfo; iv := Some (enc (l_kem L) (o, ct)) |}).
Proof.
  intros V X K P C HO T. unfold h_kem, is_set. rewrite V, X. cbn [negb guard bind]. rewrite K. cbn [bind]. rewrite P. cbn [guard bind].
  unfold kem_entry. rewrite C. cbn [bind]. rewrite HO. cbn [bind fst snd]. destruct (txid m); [|contradiction]. eexists. reflexivity.
Qed.

Lemma phrase_in L m s e p : opened L m e p -> exists s', h_passphrase L m s e = (s', Ok {| it := id_revPassphrase; iv := None |}).
Proof.
  intros (T & P & b & d & V & R & D). unfold h_passphrase, is_set. rewrite V. cbn [guard bind].
  assert (M : mock_decode (l_enckey L) (Some b) = Ok (EnvData d)) by (apply mock_iff; eexists; split; [reflexivity | exact R]).
  rewrite M. cbn [bind]. rewrite P, Z.eqb_refl. cbn [guard bind]. rewrite D. eexists. reflexivity.
Qed.

Lemma forallb_tags l : forallb (fun t => str_mem t ["en"; "de"; "fr"]) l = true <-> Forall (fun t => In t ["en"; "de"; "fr"]) l.
Proof. rewrite forallb_forall, Forall_forall. split; intros H x I; [apply str_mem_In | apply str_mem_In]; auto. Qed.

Lemma root_iff L F E e i :
  h_root L F E e = Ok i <->
  it i = id_rootCaKeyUpdate /\
  ((iv e = None \/ exists b, iv e = Some b /\ reads (l_cert L) b (f_root F)) /\ (exists u, e_update E = Ok u /\ iv i = Some (enc (l_update L) u)) \/
   (iv i = None /\ exists b c, iv e = Some b /\ reads (l_cert L) b c /\ c <> f_root F)).
Proof.
  unfold h_root. destruct i as [t v]. cbn [it iv]. destruct (iv e) as [b|] eqn:V.
  - split.
    + intros H. step H c C. apply mock_iff in C. destruct C as (b' & B & R). injection B as <-.
      destruct (bytes_eqb c (f_root F)) eqn:Q.
      * apply bytes_eqb_iff in Q. subst c. step H u U. injection H as <- <-. split; [reflexivity|]. left. split; [right; eauto|]. eauto.
      * injection H as <- <-. split; [reflexivity|]. right. split; [reflexivity|]. exists b, c. split; [reflexivity|]. split; [exact R|].
        intros Z'. apply bytes_eqb_iff in Z'. congruence.
    + intros (-> & [([N | (b' & B & R)] & u & U & ->) | (-> & b' & c & B & R & N)]); [discriminate | |]; injection B as <-.
      * assert (M : mock_decode (l_cert L) (Some b) = Ok (f_root F)) by (apply mock_iff; eauto).
        rewrite M. cbn [bind]. assert (Q : bytes_eqb (f_root F) (f_root F) = true) by now apply bytes_eqb_iff. rewrite Q, U. reflexivity.
      * assert (M : mock_decode (l_cert L) (Some b) = Ok c) by (apply mock_iff; eauto).
        rewrite M. cbn [bind]. destruct (bytes_eqb c (f_root F)) eqn:Q; [apply bytes_eqb_iff in Q; contradiction | reflexivity].
  - split.
    + intros H. step H u U. injection H as <- <-. split; [reflexivity|]. left. split; [now left|]. eauto.
    + intros (-> & [(_ & u & U & ->) | (-> & b' & c & B & _)]); [|discriminate]. rewrite U. reflexivity.
Qed.

Lemma tags_in L e i :
  h_tags L e = Ok i <-> i = {| it := id_suppLangTags; iv := Some (enc (l_tags L) ["en"]) |} /\
     exists b l, iv e = Some b /\ reads (l_tags L) b l /\ l <> [] /\ Forall (fun t => In t ["en"; "de"; "fr"]) l.
Proof.
  unfold h_tags. split.
  - intros H. step H g G. step H l D. step H g' G'. step H g2 G2. injection H as <-. split; [reflexivity|].
    apply mock_iff in D. destruct D as (b & V & R). exists b, l. split; [exact V|]. split; [exact R|].
    split; [|now apply forallb_tags, (proj1 (guard_iff _ _ _) G2)].
    apply guard_iff, negb_true_iff, Nat.eqb_neq in G'. intros ->. now apply G'.
  - intros (-> & b & l & V & R & N & Fo). assert (M : mock_decode (l_tags L) (iv e) = Ok l) by (apply mock_iff; eauto).
    unfold is_set. rewrite M, V. cbn [guard bind]. apply forallb_tags in Fo.
    destruct l as [|x l]; [contradiction|]. cbn [List.length Nat.eqb negb guard bind]. rewrite Fo. reflexivity.
Qed.

Lemma item_eta i t v : it i = t -> iv i = v -> i = {| it := t; iv := v |}.
Proof. destruct i. cbn. intros -> ->. reflexivity. Qed.

Lemma entry_reply L F E m s e i :
  ((In (it e) absent_types -> iv e = None) /\ exists s', h_entry L F E m s e = (s', Ok i)) <-> reply L F E m e i.
Proof.
  split.
  - intros (A & s' & H). destruct (entry_ok _ _ _ _ _ _ _ _ A H) as (_ & Ty). split; [exact Ty|]. clear Ty.
    assert (A' : forall t, it e = t -> In t absent_types -> iv e = None) by (intros t <-; exact A). clear A.
    types H; try discriminate H; unfold value_for.
    + pick 0%nat. split; [assumption|]. exact (kem_out _ _ _ _ _ _ H).
    + pick 1%nat. split; [assumption|]. unfold h_prot in H. destruct (is_set e) eqn:Q; [discriminate|].
      destruct (f_prot F) as [c|]; [|discriminate]. split; [apply is_set_false; now rewrite Q|]. exists c. split; [reflexivity|].
      assert (X : i = {| it := id_caProtEncCert; iv := Some (enc (l_cert L) c) |}) by congruence. now rewrite X.
    + pick 2%nat. split; [assumption|]. split; [apply (A' _ T1); cbn; tauto|]. apply pair_ok in H. destruct H as (_ & H). injection H as <-. reflexivity.
    + pick 3%nat. split; [assumption|]. split; [apply (A' _ T2); cbn; tauto|]. apply pair_ok in H. destruct H as (_ & H).
      unfold h_enc_types in H. step H g G. injection H as <-. reflexivity.
    + pick 4%nat. split; [assumption|]. split; [apply (A' _ T3); cbn; tauto|]. apply pair_ok in H. destruct H as (_ & H).
      unfold h_sym in H. step H g G. injection H as <-. reflexivity.
    + pick 5%nat. split; [assumption|]. split; [apply (A' _ T4); cbn; tauto|]. apply pair_ok in H. destruct H as (_ & H).
      unfold h_crl in H. step H g G. step H c C. injection H as <-. eauto.
    + pick 6%nat. split; [assumption|]. apply pair_ok in H. destruct H as (_ & H). unfold h_unsupported in H. step H l D. injection H as <-.
      apply mock_iff in D. destruct D as (b & V & R). exists b, l. eexists. split; [exact V|]. split; [exact R|]. split; reflexivity.
    + exfalso. apply pair_ok in H. destruct H as (_ & H). unfold h_param_req in H. step H g G. apply guard_iff, is_set_true in G.
      apply G, (A' _ T6). cbn; tauto.
    + pick 7%nat. split; [assumption|]. destruct (phrase_step _ _ _ _ _ _ T7 H) as (_ & _ & p & _ & Op).
      split; [|eauto]. unfold h_passphrase in H.
      match type of H with match ?r with _ => _ end = _ => destruct r; [|discriminate] end.
      assert (X : i = {| it := id_revPassphrase; iv := None |}) by congruence. now rewrite X.
    + pick 8%nat. split; [assumption|]. apply pair_ok in H. destruct H as (_ & H). apply tags_in in H. destruct H as (-> & X). split; [reflexivity | exact X].
    + apply pair_ok in H. destruct H as (_ & H). apply root_iff in H. destruct H as (_ & [(X & Y) | (X & Y)]).
      * pick 9%nat. split; [assumption|]. split; assumption.
      * pick 10%nat. split; [assumption|]. split; assumption.
    + pick 11%nat. split; [assumption|]. split; [apply (A' _ T11); cbn; tauto|]. apply pair_ok in H. destruct H as (_ & H). injection H as <-. reflexivity.
    + pick 12%nat. split; [assumption|]. apply pair_ok in H. destruct H as (_ & H). rewrite H. f_equal. apply item_eta; [|reflexivity].
      unfold h_crls in H. step H g G. step H l D. step H g' G'. step H cs C. destruct cs; [injection H as <-; reflexivity|].
      step H ds DS. injection H as <-. reflexivity.
    + do 13 right. split; [assumption|]. split; [apply (A' _ T13); cbn; tauto|]. apply pair_ok in H. destruct H as (_ & H). injection H as <-. reflexivity.
    + exfalso. apply pair_ok in H. destruct H as (_ & H). exact (implicit_never _ _ _ _ H).
    + exfalso. apply pair_ok in H. destruct H as (_ & H). exact (profile_never _ _ _ _ H).
  - intros (Ty & V). unfold value_for in V.
    repeat match type of V with _ \/ _ => destruct V as [V | V] end; destruct V as (T & V); rewrite T in Ty.
    + destruct V as (N & c & r & k & ss & ct & o & X & K & P & C & HO & Tx & Q). split; [now intros _|].
      assert (HE : h_entry L F E m s e = h_kem L m s e) by (unfold h_entry; rewrite T; reflexivity). rewrite HE.
      rewrite (item_eta i _ _ Ty Q). eapply kem_in; eassumption.
    + destruct V as (N & c & P & Q). split; [now intros _|].
      assert (HE : h_entry L F E m s e = h_prot L F s e) by (unfold h_entry; rewrite T; reflexivity). rewrite HE.
      rewrite (item_eta i _ _ Ty Q). unfold h_prot, is_set. rewrite N, P. eexists. reflexivity.
    + destruct V as (N & Q). split; [now intros _|]. exists s.
      assert (HE : h_entry L F E m s e = (s, Ok (h_sign_types L))) by (unfold h_entry; rewrite T; reflexivity). rewrite HE.
      rewrite (item_eta i _ _ Ty Q). reflexivity.
    + destruct V as (N & Q). split; [now intros _|]. exists s.
      assert (HE : h_entry L F E m s e = (s, h_enc_types L e)) by (unfold h_entry; rewrite T; reflexivity). rewrite HE.
      rewrite (item_eta i _ _ Ty Q). unfold h_enc_types, is_set. rewrite N. reflexivity.
    + destruct V as (N & Q). split; [now intros _|]. exists s.
      assert (HE : h_entry L F E m s e = (s, h_sym L e)) by (unfold h_entry; rewrite T; reflexivity). rewrite HE.
      rewrite (item_eta i _ _ Ty Q). unfold h_sym, is_set. rewrite N. reflexivity.
    + destruct V as (N & c & C & Q). split; [now intros _|]. exists s.
      assert (HE : h_entry L F E m s e = (s, h_crl E e)) by (unfold h_entry; rewrite T; reflexivity). rewrite HE.
      rewrite (item_eta i _ _ Ty Q). unfold h_crl, is_set. rewrite N. cbn [negb guard bind]. rewrite C. reflexivity.
    + destruct V as (b & l & u & N & R & Q & U). split; [rewrite T; cbn; intros I; repeat (destruct I as [I|I]; [discriminate I|]); destruct I|].
      exists s. assert (HE : h_entry L F E m s e = (s, h_unsupported L e)) by (unfold h_entry; rewrite T; reflexivity). rewrite HE.
      rewrite (item_eta i _ _ Ty Q). unfold h_unsupported. assert (M : mock_decode (l_oids L) (iv e) = Ok l) by (apply mock_iff; eauto).
      rewrite M. cbn [bind]. rewrite U. reflexivity.
    + destruct V as (Q & p & Op). split; [rewrite T; cbn; intros I; repeat (destruct I as [I|I]; [discriminate I|]); destruct I|].
      assert (HE : h_entry L F E m s e = h_passphrase L m s e) by (unfold h_entry; rewrite T; reflexivity). rewrite HE.
      rewrite (item_eta i _ _ Ty Q). eapply phrase_in; eassumption.
    + destruct V as (Q & X). split; [rewrite T; cbn; intros I; repeat (destruct I as [I|I]; [discriminate I|]); destruct I|].
      exists s. assert (HE : h_entry L F E m s e = (s, h_tags L e)) by (unfold h_entry; rewrite T; reflexivity). rewrite HE.
      rewrite (item_eta i _ _ Ty Q). f_equal. apply tags_in. split; [reflexivity | exact X].
    + destruct V as (X & Y). split; [rewrite T; cbn; intros I; repeat (destruct I as [I|I]; [discriminate I|]); destruct I|].
      exists s. assert (HE : h_entry L F E m s e = (s, h_root L F E e)) by (unfold h_entry; rewrite T; reflexivity). rewrite HE.
      f_equal. apply root_iff. split; [exact Ty | left; split; assumption].
    + destruct V as (X & Y). split; [rewrite T; cbn; intros I; repeat (destruct I as [I|I]; [discriminate I|]); destruct I|].
      exists s. assert (HE : h_entry L F E m s e = (s, h_root L F E e)) by (unfold h_entry; rewrite T; reflexivity). rewrite HE.
      f_equal. apply root_iff. split; [exact Ty | right; split; assumption].
    + destruct V as (N & Q). split; [now intros _|]. exists s.
      assert (HE : h_entry L F E m s e = (s, Ok (h_template L F))) by (unfold h_entry; rewrite T; reflexivity). rewrite HE.
      rewrite (item_eta i _ _ Ty Q). reflexivity.
    + split; [rewrite T; cbn; intros I; repeat (destruct I as [I|I]; [discriminate I|]); destruct I|].
      exists s. assert (HE : h_entry L F E m s e = (s, h_crls L F E e)) by (unfold h_entry; rewrite T; reflexivity). rewrite HE, V.
      do 2 f_equal. symmetry. apply item_eta; [exact Ty | reflexivity].
    + destruct V as (N & Q). split; [now intros _|]. exists s.
      assert (HE : h_entry L F E m s e = (s, Ok (h_ca_certs L F))) by (unfold h_entry; rewrite T; reflexivity). rewrite HE.
      rewrite (item_eta i _ _ Ty Q). reflexivity.
Qed.

Lemma loop_reply L F E m l : forall s is,
  (exists s', h_loop L F E m s l = (s', Ok is)) <-> Forall2 (reply L F E m) l is.
Proof.
  induction l as [|e l IH]; intros s is; cbn [h_loop].
  - split; [intros (s' & H); assert (is = []) by congruence; subst; constructor | intros H; inversion H; subst; eauto].
  - split.
    + intros (s' & H). destruct (check_absent e) as [u|] eqn:A; [|discriminate]. destruct u. rewrite absent_iff in A.
      destruct (h_entry L F E m s e) as [s1 [i|]] eqn:Q; [|discriminate].
      destruct (h_loop L F E m s1 l) as [s2 [is'|]] eqn:R; [|discriminate].
      assert (is = i :: is') by congruence. subst. constructor; [apply (entry_reply L F E m s); split; eauto | apply (IH s1); eauto].
    + intros H. inversion H as [|e' i l' is' R W]; subst. apply (entry_reply L F E m s) in R. destruct R as (A & s1 & Q).
      assert (C : check_absent e = Ok tt) by (apply absent_iff; exact A). rewrite C, Q.
      apply (IH s1) in W. destruct W as (s2 & W). rewrite W. eauto.
Qed.

Lemma process_reply L F E s m is :
  (exists s', process_genm L F E s m = (s', Ok is)) <->
  entries m <> [] /\ (f_lwcmp F = true -> length (entries m) = 1%nat) /\ Forall2 (reply L F E m) (entries m) is.
Proof.
  unfold process_genm. rewrite <- (loop_reply L F E m (entries m) s). split.
  - intros (s' & H). destruct (check_genm F m) eqn:C; [|discriminate]. apply genm_iff in C. destruct C as (C1 & C2). eauto.
  - intros (A & B & s' & H). assert (C : check_genm F m = Ok tt) by (apply genm_iff; split; assumption). rewrite C. eauto.
Qed.

Lemma process_bad F L E s m :
  entries m = [] \/ f_lwcmp F = true /\ (1 < length (entries m))%nat -> process_genm L F E s m = (s, Err EBadRequest).
Proof.
  intros [H | (H & N)]; unfold process_genm, check_genm.
  - rewrite H. cbn [List.length]. change ((1 <? 0)%nat) with false. rewrite andb_false_r. reflexivity.
  - rewrite H. apply Nat.ltb_lt in N. rewrite N. reflexivity.
Qed.
