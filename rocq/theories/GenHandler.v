(** Proofs about the Mock CA's handler of general messages. *)
From Coq Require Import String.
From Verif Require Import Prelude PreludeFacts PyStr ProtMac ChamProofs GenModel GenSpec GenProofs.
Open Scope string_scope.
Open Scope Z_scope.
Open Scope list_scope.
Local Notation length := List.length.

Lemma absent_iff e u :
  check_absent e = Ok u <-> (In (it e) absent_types -> iv e = None).
Proof.
  unfold check_absent. rewrite guard_iff, negb_true_iff, andb_false_iff. unfold is_set.
  destruct (str_mem (it e) absent_types) eqn:M, (iv e) eqn:V; split; intros H; auto.
  - destruct H; discriminate.
  - exfalso. apply str_mem_In in M. discriminate (H M).
  - intros I. apply str_mem_In in I. congruence.
Qed.

(** Case analysis on the type of an entry. *)
Ltac types E :=
  unfold h_entry in E;
  repeat match type of E with
         | (if String.eqb ?a ?b then _ else _) = _ => destruct (String.eqb_spec a b) as [?T|?T]
         end.

Lemma is_set_true e : is_set e = true <-> iv e <> None.
Proof. unfold is_set. destruct (iv e); split; congruence. Qed.
Lemma is_set_false e : negb (is_set e) = true <-> iv e = None.
Proof. unfold is_set. destruct (iv e); cbn; split; congruence. Qed.

Lemma pair_ok A B (s s' : A) (r : result B) i : (s, r) = (s', Ok i) -> s' = s /\ r = Ok i.
Proof. intros H. split; congruence. Qed.

Lemma profile_never L F e i : h_profile L F e <> Ok i.
Proof.
  intros H. unfold h_profile in H. step H l D. destruct l as [|p r]; [discriminate|]. step H g G. step H g' G'. discriminate.
Qed.
Lemma implicit_never L F e i : h_implicit L F e <> Ok i.
Proof.
  intros H. unfold h_implicit in H. step H g G. apply guard_iff, is_set_false in G. step H g' G'. step H u U.
  apply mock_iff in U. destruct U as (b & E & _). congruence.
Qed.

Lemma entry_ok L F E m s e s' i :
  (In (it e) absent_types -> iv e = None) -> h_entry L F E m s e = (s', Ok i) ->
  In (it e) answered /\ it i = answer_type (it e).
Proof.
  intros A H. types H; try discriminate H.
  - rewrite T. split; [cbn; tauto|]. unfold h_kem in H.
    match type of H with match ?r with _ => _ end = _ => destruct r as [[t [ss i']]|] eqn:R; [|discriminate] end.
    step R g G. destruct (extra m) as [|c r]; [discriminate|]. step R k K. step R g' G'. step R p P.
    unfold kem_entry in P. step P sc Q. step P o HO. destruct (txid m); [|discriminate].
    assert (X0 : p = (ss, i')) by congruence. assert (i = i') by congruence. subst p i'.
    assert (X : i = {| it := id_KemCiphertextInfo; iv := Some (enc (l_kem L) (o, snd sc)) |}) by congruence.
    rewrite X. reflexivity.
  - rewrite T0. split; [cbn; tauto|]. unfold h_prot in H. destruct (is_set e); [discriminate|]. destruct (f_prot F); [|discriminate].
    assert (X : i = {| it := id_caProtEncCert; iv := Some (enc (l_cert L) c) |}) by congruence. now rewrite X.
  - rewrite T1. apply pair_ok in H. destruct H as (_ & H). split; [cbn; tauto|]. assert (X : i = h_sign_types L) by congruence. now rewrite X.
  - rewrite T2. apply pair_ok in H. destruct H as (_ & H). split; [cbn; tauto|]. unfold h_enc_types in H. step H g G.
    injection H as <-. reflexivity.
  - rewrite T3. apply pair_ok in H. destruct H as (_ & H). split; [cbn; tauto|]. unfold h_sym in H. step H g G. injection H as <-. reflexivity.
  - rewrite T4. apply pair_ok in H. destruct H as (_ & H). split; [cbn; tauto|]. unfold h_crl in H. step H g G. step H c C. injection H as <-. reflexivity.
  - rewrite T5. apply pair_ok in H. destruct H as (_ & H). split; [cbn; tauto|]. unfold h_unsupported in H. step H l D. injection H as <-. reflexivity.
  - exfalso. apply pair_ok in H. destruct H as (_ & H). unfold h_param_req in H. step H g G. apply guard_iff, is_set_true in G.
    apply G, A. rewrite T6. cbn; tauto.
  - rewrite T7. split; [cbn; tauto|]. unfold h_passphrase in H.
    match type of H with match ?r with _ => _ end = _ => destruct r; [|discriminate] end.
    assert (X : i = {| it := id_revPassphrase; iv := None |}) by congruence. now rewrite X.
  - rewrite T8. apply pair_ok in H. destruct H as (_ & H). split; [cbn; tauto|]. unfold h_tags in H. step H g G. step H l D. step H g' G'. step H g2 G2.
    injection H as <-. reflexivity.
  - rewrite T10. apply pair_ok in H. destruct H as (_ & H). split; [cbn; tauto|]. change (answer_type id_rootCaCert) with id_rootCaKeyUpdate.
    unfold h_root in H. destruct (iv e).
    + step H c C. destruct (bytes_eqb c (f_root F)); [step H u U|]; injection H as <-; reflexivity.
    + step H u U. injection H as <-. reflexivity.
  - rewrite T11. apply pair_ok in H. destruct H as (_ & H). split; [cbn; tauto|]. assert (X : i = h_template L F) by congruence. now rewrite X.
  - rewrite T12. apply pair_ok in H. destruct H as (_ & H). split; [cbn; tauto|]. change (answer_type id_crlStatusList) with id_crls.
    unfold h_crls in H. step H g G. step H l D. step H g' G'. step H cs C. destruct cs; [injection H as <-; reflexivity|].
    step H ds DS. injection H as <-. reflexivity.
  - rewrite T13. apply pair_ok in H. destruct H as (_ & H). split; [cbn; tauto|]. assert (X : i = h_ca_certs L F) by congruence. now rewrite X.
  - exfalso. apply pair_ok in H. destruct H as (_ & H). exact (implicit_never _ _ _ _ H).
  - exfalso. apply pair_ok in H. destruct H as (_ & H). exact (profile_never _ _ _ _ H).
Qed.

Lemma no_value_absent o : In o no_value -> In o absent_types.
Proof. unfold no_value, absent_types. cbn [In]. tauto. Qed.

Lemma loop_ok L F E m s l s' is :
  h_loop L F E m s l = (s', Ok is) ->
  Forall2 (fun e i => In (it e) answered /\ (In (it e) no_value -> iv e = None) /\ it i = answer_type (it e)) l is.
Proof.
  revert s s' is. induction l as [|e l IH]; intros s s' is H; cbn [h_loop] in H.
  - assert (is = []) by congruence. subst. constructor.
  - destruct (check_absent e) as [u|] eqn:A; [|discriminate]. destruct u. rewrite absent_iff in A.
    destruct (h_entry L F E m s e) as [s1 [i|]] eqn:Q; [|discriminate].
    destruct (h_loop L F E m s1 l) as [s2 [is'|]] eqn:R; [|discriminate].
    assert (is = i :: is') by congruence. subst. destruct (entry_ok _ _ _ _ _ _ _ _ A Q) as (I & T).
    constructor; [|eapply IH; exact R]. split; [exact I|]. split; [|exact T]. intros N. apply A. now apply no_value_absent.
Qed.

Lemma genm_iff F m u :
  check_genm F m = Ok u <-> entries m <> [] /\ (f_lwcmp F = true -> length (entries m) = 1%nat).
Proof.
  unfold check_genm. rewrite bind_iff. split.
  - intros (x & A & B). apply guard_iff, negb_true_iff, andb_false_iff in A. apply guard_iff, negb_true_iff, Nat.eqb_neq in B.
    split; [intros E; rewrite E in B; now apply B|]. intros Lw. destruct A as [A|A]; [congruence|]. apply Nat.ltb_ge in A. lia.
  - intros (A & B). exists tt. split; apply guard_iff, negb_true_iff.
    + apply andb_false_iff. destruct (f_lwcmp F); [right | now left]. apply Nat.ltb_ge. rewrite B; auto.
    + apply Nat.eqb_neq. intros E. apply length_zero_iff_nil in E. contradiction.
Qed.

Lemma process_ok L F E s m s' is :
  process_genm L F E s m = (s', Ok is) ->
  entries m <> [] /\ (f_lwcmp F = true -> length (entries m) = 1%nat) /\
  Forall2 (fun e i => In (it e) answered /\ (In (it e) no_value -> iv e = None) /\ it i = answer_type (it e)) (entries m) is.
Proof.
  unfold process_genm. destruct (check_genm F m) eqn:C; [|discriminate]. intros H. apply genm_iff in C.
  destruct C as (C1 & C2). split; [exact C1|]. split; [exact C2|]. eapply loop_ok; exact H.
Qed.

Lemma process_never L F E s m e :
  In e (entries m) -> ~ In (it e) answered \/ In (it e) no_value /\ iv e <> None ->
  exists x s', process_genm L F E s m = (s', Err x).
Proof.
  intros I N. destruct (process_genm L F E s m) as [s' [is|x]] eqn:P; [|eauto]. exfalso.
  apply process_ok in P. destruct P as (_ & _ & W). revert I. induction W as [|a b l r (A & B & _) W IH]; intros I; [exact I|].
  destruct I as [-> | I]; [|auto]. destruct N as [N | (N & V)]; auto.
Qed.

(** ** State *)

Lemma phrase_step L m s e s' r :
  it e = id_revPassphrase -> h_passphrase L m s e = (s', r) ->
  secrets s' = secrets s /\ pending s' = pending s /\
  match r with
  | Ok _ => exists p, phrases s' = phrases s ++ [p] /\ opened L m e p
  | Err _ => s' = s
  end.
Proof.
  intros T H. unfold h_passphrase in H.
  match type of H with match ?r with _ => _ end = _ => destruct r as [p|x] eqn:R end.
  - assert (X : s' = {| phrases := phrases s ++ [p]; secrets := secrets s; pending := pending s |}) by congruence.
    assert (Y : r = Ok {| it := id_revPassphrase; iv := None |}) by congruence. subst s' r. cbn [secrets pending phrases].
    split; [reflexivity|]. split; [reflexivity|]. exists p. split; [reflexivity|].
    step R g G. step R k K. apply mock_iff in K. destruct K as (b & B & K). split; [exact T|].
    destruct k as [|d]; [step R g' G'; discriminate|]. step R g' G'. apply guard_iff, Z.eqb_eq in G'. split; [exact G'|].
    exists b, d. auto.
  - assert (s' = s) by congruence. assert (r = Err x) by congruence. subst. auto.
Qed.

Definition kem_made (L : lib) (m : msg) (e : item) (t ss : bytes) (i : item) : Prop :=
  it e = id_KemCiphertextInfo /\ iv e = None /\ txid m = Some t /\
  exists c r k o ct, extra m = c :: r /\ l_key L c = Ok k /\ l_kem_pub L k = true /\ l_encaps L k = Ok (ss, ct) /\
    l_kem_oid L k = Ok o /\ i = {| it := id_KemCiphertextInfo; iv := Some (enc (l_kem L) (o, ct)) |}.

Lemma kem_step L m s e s' r :
  it e = id_KemCiphertextInfo -> h_kem L m s e = (s', r) ->
  phrases s' = phrases s /\ pending s' = pending s /\
  match r with
  | Ok i => exists t ss, kem_made L m e t ss i /\
              secrets s' = (t, ss) :: filter (fun q => negb (bytes_eqb (fst q) t)) (secrets s)
  | Err _ => s' = s
  end.
Proof.
  intros T H. unfold h_kem in H.
  match type of H with match ?r with _ => _ end = _ => destruct r as [[t [ss i]]|x] eqn:R end.
  - match type of H with (?a, _) = _ => assert (X : s' = a) by congruence end. assert (Y : r = Ok i) by congruence. subst s' r.
    cbn [phrases pending secrets]. split; [reflexivity|]. split; [reflexivity|]. exists t, ss. split; [|reflexivity].
    step R g G. apply guard_iff, is_set_false in G. destruct (extra m) as [|c r] eqn:XM; [discriminate|]. step R k K. step R g' G'. apply guard_iff in G'.
    step R p P. unfold kem_entry in P. step P sc Q. step P o HO. destruct (txid m) as [t'|] eqn:TX; [|discriminate].
    destruct sc as [ss' ct]. cbn [fst snd] in P.
    assert (t' = t) by congruence. assert (p = (ss, i)) by congruence. assert (ss' = ss) by congruence. subst.
    split; [exact T|]. split; [exact G|]. split; [exact TX|]. exists c, r, k, o, ct. repeat split; auto. congruence.
  - assert (s' = s) by congruence. assert (r = Err x) by congruence. subst. auto.
Qed.

(** What one entry does to the state. *)
Lemma entry_state L F E m s e s' r :
  h_entry L F E m s e = (s', r) ->
  (phrases s' = phrases s /\ (it e = id_revPassphrase -> exists x, r = Err x) \/
   exists p i, r = Ok i /\ phrases s' = phrases s ++ [p] /\ opened L m e p) /\
  (secrets s' = secrets s \/
   exists t ss i, r = Ok i /\ kem_made L m e t ss i /\
     secrets s' = (t, ss) :: filter (fun q => negb (bytes_eqb (fst q) t)) (secrets s)) /\
  (pending s' = pending s \/ it e = id_caProtEncCert /\ pending s' = true) /\
  (forall x, r = Err x -> s' = s).
Proof.
  intros H. types H.
  1:{ destruct (kem_step _ _ _ _ _ _ T H) as (A & B & C). split; [left; split; [exact A|]; rewrite T; discriminate|].
      split; [|split; [now left|]].
      - destruct r as [i|x]; [|left; now subst]. destruct C as (t & ss & K & S'). right. eauto 6.
      - intros x ->. exact C. }
  1:{ unfold h_prot in H. rewrite T0. destruct (is_set e).
      { assert (s' = s) by congruence. subst. split; [left; split; [reflexivity | discriminate]|]. auto. }
      destruct (f_prot F).
      - match type of H with (?a, _) = _ => assert (X : s' = a) by congruence end. subst s'. cbn [phrases secrets pending].
        split; [left; split; [reflexivity | discriminate]|]. split; [now left|]. split; [now right|]. intros x ->. discriminate.
      - assert (s' = s) by congruence. subst. split; [left; split; [reflexivity | discriminate]|]. auto. }
  7:{ destruct (phrase_step _ _ _ _ _ _ T7 H) as (A & B & C). split; [|split; [now left|split; [now left|]]].
      - destruct r as [i|x]; [|left; subst; split; [reflexivity | eauto]]. destruct C as (p & P & O). right. eauto.
      - intros x ->. exact C. }
  all: assert (X : s' = s) by congruence; subst s'; split; [left; split; [reflexivity | intros Y; first [contradiction | match goal with T : it _ = _ |- _ => rewrite T in Y; discriminate Y end]] | auto].
Qed.

Lemma loop_state L F E m l s s' r :
  h_loop L F E m s l = (s', r) ->
  (exists ps, phrases s' = phrases s ++ ps /\
     Forall (fun p => exists e, In e l /\ opened L m e p) ps /\
     (forall is, r = Ok is -> Forall2 (opened L m) (filter (fun e => String.eqb (it e) id_revPassphrase) l) ps)) /\
  (forall t, txid m <> Some t -> forall ss, secret s' t ss <-> secret s t ss) /\
  (pending s = true -> pending s' = true) /\
  (forall is, r = Ok is -> (exists e, In e l /\ it e = id_caProtEncCert) -> pending s' = true).
Proof.
  revert s s' r. induction l as [|e l IH]; intros s s' r H; cbn [h_loop] in H.
  - assert (s' = s) by congruence. subst. split; [|split; [tauto|split; [auto|]]].
    + exists []. rewrite app_nil_r. split; [reflexivity|]. split; [constructor|]. intros is _. constructor.
    + intros is _ (e & [] & _).
  - destruct (check_absent e) as [u|x] eqn:A.
    2:{ assert (s' = s) by congruence. assert (r = Err x) by congruence. subst. split; [|split; [tauto|split; [auto|discriminate]]].
        exists []. rewrite app_nil_r. split; [reflexivity|]. split; [constructor|]. discriminate. }
    destruct (h_entry L F E m s e) as [s1 r1] eqn:Q. pose proof (entry_state _ _ _ _ _ _ _ _ Q) as (P & SS & PE & ER).
    destruct r1 as [i|x].
    2:{ assert (s' = s1) by congruence. assert (r = Err x) by congruence. subst. rewrite (ER _ eq_refl).
        split; [|split; [tauto|split; [auto|discriminate]]].
        exists []. rewrite app_nil_r. split; [reflexivity|]. split; [constructor|]. discriminate. }
    destruct (h_loop L F E m s1 l) as [s2 r2] eqn:R. specialize (IH _ _ _ R). destruct IH as ((ps & W1 & W2 & W3) & IS & IP & IC).
    assert (s' = s2) by (destruct r2; congruence). subst s'.
    split; [|split; [|split]].
    + destruct P as [(P & NR) | (p & i' & Ei & P & O)].
      * exists ps. rewrite <- P. split; [exact W1|]. split.
        { eapply Forall_impl; [|exact W2]. intros q (e' & I & Oq). exists e'. split; [now right | exact Oq]. }
        intros is Er. cbn [filter]. destruct (String.eqb_spec (it e) id_revPassphrase) as [T|T].
        { destruct (NR T) as (x & X). discriminate. }
        destruct r2 as [is'|]; [|congruence]. now apply (W3 is').
      * exists (p :: ps). split; [rewrite W1, P, <- app_assoc; reflexivity|]. split.
        { constructor; [exists e; split; [now left | exact O]|]. eapply Forall_impl; [|exact W2]. intros q (e' & I & Oq). exists e'. split; [now right | exact Oq]. }
        intros is Er. cbn [filter]. destruct O as (T & O). rewrite T, String.eqb_refl. destruct r2 as [is'|]; [|congruence].
        constructor; [split; [exact T | exact O]|]. now apply (W3 is').
    + intros t Nt ss. rewrite (IS t Nt ss). destruct SS as [SS | (t' & ss' & i' & _ & K & SS)]; unfold secret; [now rewrite SS|].
      rewrite SS. destruct K as (_ & _ & TX & _). assert (D : t' <> t) by congruence. clear - D.
      induction (secrets s) as [|[a b] l IH]; cbn [filter fst].
      { split; intros (pre & post & X & Y); destruct pre as [|[c d] pre]; cbn [app] in X.
        - exfalso. injection X as X1 X2. congruence.
        - injection X as X1 X2 X3. destruct pre; discriminate.
        - discriminate.
        - discriminate. }
      assert (G : forall X : list (bytes * bytes), (exists pre post, (t', ss') :: X = pre ++ (t, ss) :: post /\ Forall (fun q => fst q <> t) pre) <->
                  (exists pre post, X = pre ++ (t, ss) :: post /\ Forall (fun q => fst q <> t) pre)).
      { intros X. split.
        - intros ([|q pre] & post & X1 & X2); cbn [app] in X1; [exfalso; assert ((t', ss') = (t, ss)) by congruence; congruence|].
          exists pre, post. inversion X2; subst. split; [congruence | assumption].
        - intros (pre & post & -> & X2). exists ((t', ss') :: pre), post. split; [reflexivity|]. constructor; [exact D | exact X2]. }
      rewrite G in IH |- *. 
      assert (G2 : forall (q : bytes * bytes) (X : list (bytes * bytes)), (exists pre post, q :: X = pre ++ (t, ss) :: post /\ Forall (fun q => fst q <> t) pre) <->
                  (q = (t, ss) \/ fst q <> t /\ exists pre post, X = pre ++ (t, ss) :: post /\ Forall (fun q => fst q <> t) pre)).
      { intros q X. split.
        - intros ([|q' pre] & post & X1 & X2); cbn [app] in X1.
          + left. congruence.
          + right. inversion X2; subst. assert (q = q') by congruence. subst. split; [assumption|]. exists pre, post. split; [congruence | assumption].
        - intros [-> | (N & pre & post & -> & X2)]; [exists [], X; split; [reflexivity | constructor]|].
          exists (q :: pre), post. split; [reflexivity | now constructor]. }
      destruct (bytes_eqb a t') eqn:B; cbn [negb].
      * apply bytes_eqb_iff in B. subst a. rewrite G2, IH. cbn [fst]. split; [intros Y; right; auto|]. intros [Y | (_ & Y)]; [congruence | exact Y].
      * rewrite !G2, IH. reflexivity.
    + intros Pd. apply IP. destruct PE as [-> | (_ & ->)]; auto.
    + intros is Er (e' & [-> | I] & T).
      * apply IP. destruct PE as [PE | (_ & PE)]; [|exact PE].
        unfold h_entry in Q. rewrite T in Q. change (String.eqb id_caProtEncCert id_KemCiphertextInfo) with false in Q.
        change (String.eqb id_caProtEncCert id_caProtEncCert) with true in Q. cbv iota in Q. unfold h_prot in Q.
        destruct (is_set e'); [discriminate|]. destruct (f_prot F); [|discriminate].
        match type of Q with (?a, _) = _ => assert (X : s1 = a) by congruence end. now rewrite X.
      * destruct r2 as [is'|]; [|congruence]. apply (IC is' eq_refl). eauto.
Qed.

Lemma process_state L F E s m s' r :
  process_genm L F E s m = (s', r) ->
  (exists ps, phrases s' = phrases s ++ ps /\
     Forall (fun p => exists e, In e (entries m) /\ opened L m e p) ps /\
     (forall is, r = Ok is -> Forall2 (opened L m) (filter (fun e => String.eqb (it e) id_revPassphrase) (entries m)) ps)) /\
  (forall t, txid m <> Some t -> forall ss, secret s' t ss <-> secret s t ss) /\
  (pending s = true -> pending s' = true) /\
  (forall is, r = Ok is -> (exists e, In e (entries m) /\ it e = id_caProtEncCert) -> pending s' = true).
Proof.
  unfold process_genm. destruct (check_genm F m) as [u|x] eqn:C; [apply loop_state|].
  intros H. assert (s' = s) by congruence. assert (r = Err x) by congruence. subst.
  split; [|split; [tauto|split; [auto|discriminate]]]. exists []. rewrite app_nil_r. split; [reflexivity|]. split; [constructor | discriminate].
Qed.

Lemma process_atomic L F E s m s' x :
  f_lwcmp F = true -> process_genm L F E s m = (s', Err x) -> s' = s.
Proof.
  intros Lw. unfold process_genm. destruct (check_genm F m) as [u|y] eqn:C; [|congruence].
  apply genm_iff in C. destruct C as (_ & C). specialize (C Lw). destruct (entries m) as [|e [|? ?]]; try discriminate C.
  cbn [h_loop]. destruct (check_absent e); [|congruence]. destruct (h_entry L F E m s e) as [s1 [i|z]] eqn:Q; [discriminate|].
  intros H. destruct (entry_state _ _ _ _ _ _ _ _ Q) as (_ & _ & _ & ER). assert (s' = s1) by congruence. subst. eauto.
Qed.

Lemma secret_head s t ss l : secrets s = (t, ss) :: l -> secret s t ss.
Proof. intros E. exists [], l. split; [exact E | constructor]. Qed.

Lemma process_kem L F E s m s' is e k c r sk m' n :
  faithful (l_kem L) -> entries m = [e] -> it e = id_KemCiphertextInfo -> process_genm L F E s m = (s', Ok is) ->
  extra m = c :: r -> l_key L c = Ok k -> kem_pair L k sk -> response L m' n -> entries m' = is ->
  exists t ss, txid m = Some t /\ secret s' t ss /\ validate_kem L m' (Some sk) n = Ok ss.
Proof.
  intros Fa En T P X K KP R Em. unfold process_genm in P. destruct (check_genm F m); [|discriminate]. rewrite En in P. cbn [h_loop] in P.
  destruct (check_absent e); [|discriminate]. destruct (h_entry L F E m s e) as [s1 r1] eqn:Q. destruct r1 as [i|]; [|discriminate].
  assert (s1 = s') by congruence. assert (X0 : is = [i]) by congruence. rewrite X0 in Em. subst s1.
  unfold h_entry in Q. rewrite T, String.eqb_refl in Q. destruct (kem_step _ _ _ _ _ _ T Q) as (_ & _ & t & ss & M & S').
  exists t, ss. destruct M as (_ & _ & TX & c' & r' & k' & o & ct & X' & K' & _ & EN & _ & ->).
  assert (c' = c) by congruence. subst c'. assert (k' = k) by congruence. subst k'.
  split; [exact TX|]. split; [eapply secret_head; exact S'|]. apply kem_iff. split; [exact R|].
  exists (enc (l_kem L) (o, ct)), o, ct. split; [apply answer_one; exact Em|]. split; [apply Fa | now apply KP].
Qed.

Lemma remove_ok s m s' b t :
  txid m = Some t -> remove_secret s m = Ok (s', b) ->
  (forall ss, ~ secret s' t ss) /\ (b = true <-> exists ss, secret s t ss) /\
  (forall u ss, u <> t -> (secret s' u ss <-> secret s u ss)) /\ phrases s' = phrases s /\ pending s' = pending s.
Proof.
  intros T. unfold remove_secret. rewrite T.
  assert (G : (exists ss, secret s t ss) <-> existsb (fun q => bytes_eqb (fst q) t) (secrets s) = true).
  { unfold secret. induction (secrets s) as [|[a b0] l IH]; cbn [existsb fst].
    - split; [intros (ss & [|? ?] & post & X & _); discriminate | discriminate].
    - rewrite orb_true_iff, <- IH, bytes_eqb_iff. split.
      + intros (ss & [|q pre] & post & X & Y); cbn [app] in X; [left; congruence|]. right. inversion Y; subst. exists ss, pre, post. split; [congruence | assumption].
      + destruct (list_eq_dec Z.eq_dec a t) as [->|N]; [intros _; exists b0, [], l; split; [reflexivity | constructor]|].
        intros [? | (ss & pre & post & -> & Y)]; [contradiction|]. exists ss, ((a, b0) :: pre), post. split; [reflexivity | now constructor]. }
  destruct (existsb (fun q => bytes_eqb (fst q) t) (secrets s)) eqn:B; intros H.
  - match type of H with Ok (?a, _) = _ => assert (X : s' = a) by congruence end. assert (b = true) by congruence. subst s' b. clear H.
    cbn [phrases pending]. split; [|split; [tauto|split; [|auto]]].
    + intros ss (pre & post & X & _). cbn [secrets] in X.
      assert (I : In (t, ss) (filter (fun q => negb (bytes_eqb (fst q) t)) (secrets s))) by (rewrite X; apply in_elt).
      apply filter_In in I. destruct I as (_ & I). cbn [fst] in I. apply negb_true_iff in I.
      assert (bytes_eqb t t = true) by now apply bytes_eqb_iff. congruence.
    + intros u ss N. unfold secret. cbn [secrets]. clear - N. induction (secrets s) as [|[a b] l IH]; cbn [filter fst]; [reflexivity|].
      assert (G2 : forall (q : bytes * bytes) (X : list (bytes * bytes)), (exists pre post, q :: X = pre ++ (u, ss) :: post /\ Forall (fun q => fst q <> u) pre) <->
                  (q = (u, ss) \/ fst q <> u /\ exists pre post, X = pre ++ (u, ss) :: post /\ Forall (fun q => fst q <> u) pre)).
      { intros q X. split.
        - intros ([|q' pre] & post & X1 & X2); cbn [app] in X1.
          + left. congruence.
          + right. inversion X2; subst. assert (q = q') by congruence. subst. split; [assumption|]. exists pre, post. split; [congruence | assumption].
        - intros [-> | (M & pre & post & -> & X2)]; [exists [], X; split; [reflexivity | constructor]|].
          exists (q :: pre), post. split; [reflexivity | now constructor]. }
      destruct (bytes_eqb a t) eqn:B; cbn [negb].
      * apply bytes_eqb_iff in B. subst a. rewrite IH, G2. cbn [fst]. split; [intros Y; right; split; [congruence | exact Y]|].
        intros [Y | (_ & Y)]; [congruence | exact Y].
      * rewrite !G2, IH. reflexivity.
  - assert (s' = s) by congruence. assert (b = false) by congruence. subst. split; [|split; [|split; [tauto|auto]]].
    + intros ss X. assert (false = true) by (apply G; eauto). congruence.
    + split; [discriminate|]. intros X. apply G in X. congruence.
Qed.

Lemma patch_ok F s x s' y :
  patch_extra F s x = (s', y) ->
  pending s' = false /\ phrases s' = phrases s /\ secrets s' = secrets s /\
  (pending s = false -> y = x) /\
  (pending s = true -> forall cs, f_env F = Some cs -> y = x ++ cs) /\
  (pending s = true -> f_env F = None -> y = x).
Proof.
  unfold patch_extra. destruct (pending s) eqn:P; intros H.
  - match type of H with (?a, _) = _ => assert (X : s' = a) by congruence end. subst s'. cbn [pending phrases secrets].
    assert (Y : y = match f_env F with Some cs => x ++ cs | None => x end) by congruence. subst y.
    repeat split; auto; try discriminate; intros _; [intros cs -> | intros ->]; reflexivity.
  - assert (s' = s) by congruence. assert (y = x) by congruence. subst. repeat split; auto; discriminate.
Qed.

(** ** The handler's answers pass the client's checks *)

Lemma single L F E s m s' is e :
  entries m = [e] -> process_genm L F E s m = (s', Ok is) -> exists i, is = [i] /\ h_entry L F E m s e = (s', Ok i).
Proof.
  intros En P. unfold process_genm in P. destruct (check_genm F m); [|discriminate]. rewrite En in P. cbn [h_loop] in P.
  destruct (check_absent e); [|discriminate]. destruct (h_entry L F E m s e) as [s1 [i|]] eqn:Q; [|discriminate].
  exists i. split; congruence.
Qed.
Lemma one_answer m i : entries m = [i] -> answer m (it i) (iv i).
Proof. intros E. exists [], i, []. repeat split; auto. Qed.

Section Round.
  Variables (L : lib) (F : conf) (E : env) (s s' : st) (q : msg) (is : list item) (e : item) (m : msg) (n : size).
  Hypothesis Q : entries q = [e].
  Hypothesis P : process_genm L F E s q = (s', Ok is).
  Hypothesis R : response L m n.
  Hypothesis M : entries m = is.

  Lemma round_answer : exists i, h_entry L F E q s e = (s', Ok i) /\ answer m (it i) (iv i).
  Proof. destruct (single _ _ _ _ _ _ _ _ Q P) as (i & -> & H). exists i. split; [exact H | now apply one_answer]. Qed.

  Lemma round_template must c :
    faithful (l_tmpl L) -> faithful (l_len L) -> it e = id_certReqTemplate ->
    (request_template L m must c n = Ok tt <-> 2048 <= f_rsa F).
  Proof.
    intros Ft Fl T. destruct round_answer as (i & H & A). unfold h_entry in H. rewrite T in H.
    assert (X : i = h_template L F) by (apply pair_ok in H; destruct H; congruence). subst i. cbn [h_template it iv] in A.
    rewrite template_iff. split.
    - intros (_ & b & t & k & v & A' & RD & S' & K & _). apply entry_iff in A, A'.
      match type of A with _ = Ok (Some ?x) => assert (b = x) by congruence end. subst b.
      match type of A with _ = Ok (Some (enc _ ?x)) => pose proof (Ft x) as Y end. unfold reads in *.
      match type of Y with _ = Some (?x, _) => assert (Z0 : t = x) by congruence end. subst t. cbn [t_spec] in S'.
      assert (Ek : k = id_rsaKeyLen) by congruence. assert (Ev : v = enc (l_len L) (f_rsa F)) by congruence. subst k v.
      destruct K as [(_ & z & Rz & Z1) | [(B & _) | (B & _)]]; [|discriminate | contradiction].
      pose proof (Fl (f_rsa F)) as Y2. unfold reads in *. assert (z = f_rsa F) by congruence. now subst.
    - intros Z1. split; [exact R|]. do 4 eexists. split; [exact A|]. split; [apply Ft|]. split; [reflexivity|]. split.
      + left. split; [reflexivity|]. exists (f_rsa F). split; [apply Fl | exact Z1].
      + repeat split.
  Qed.

  Lemma round_tags : faithful (l_tags L) -> it e = id_suppLangTags -> language_tags L m n = Ok tt.
  Proof.
    intros Ft T. destruct round_answer as (i & H & A). unfold h_entry in H. rewrite T in H. apply pair_ok in H. destruct H as (_ & H).
    unfold h_tags in H. step H g G. step H l D. step H g' G'. step H g2 G2. injection H as <-. cbn [it iv] in A.
    apply tags_iff. split; [exact R|]. do 2 eexists. split; [exact A | apply Ft].
  Qed.

  Lemma round_sym : faithful (l_alg L) -> it e = id_preferredSymmAlg -> l_known L id_aes256 = Some "aes256_cbc" -> sym_alg L m n = Ok "aes256_cbc".
  Proof.
    intros Ft T K. destruct round_answer as (i & H & A). unfold h_entry in H. rewrite T in H. apply pair_ok in H. destruct H as (_ & H).
    unfold h_sym in H. step H g G. injection H as <-. cbn [it iv] in A.
    apply sym_iff. split; [exact R|]. do 2 eexists. split; [exact A|]. split; [apply Ft|]. cbn [a_oid]. split; [cbn; tauto | now left].
  Qed.

  Lemma round_sign : faithful (l_algs L) -> it e = id_signKeyPairTypes -> signing_types L m n = Ok tt.
  Proof.
    intros Ft T. destruct round_answer as (i & H & A). unfold h_entry in H. rewrite T in H.
    assert (X : i = h_sign_types L) by (apply pair_ok in H; destruct H; congruence). subst i. cbn [h_sign_types it iv] in A.
    apply sign_iff. split; [exact R|]. do 2 eexists. split; [exact A | apply Ft].
  Qed.

  Lemma round_enc names :
    faithful (l_algs L) -> faithful (l_curve L) -> it e = id_encKeyPairTypes ->
    l_curve_name L id_X25519 = None -> l_curve_name L id_X448 = None ->
    Forall2 (fun o x => l_curve_name L o = Some x) (l_curves L) names ->
    enc_types L m n = Ok (names ++ ["x25519"; "x448"]).
  Proof.
    intros Ft Fc T N1 N2 W. destruct round_answer as (i & H & A). unfold h_entry in H. rewrite T in H. apply pair_ok in H. destruct H as (_ & H).
    unfold h_enc_types in H. step H g G. injection H as <-. cbn [it iv] in A.
    apply enc_iff. split; [exact R|]. do 2 eexists. split; [exact A|]. split; [apply Ft|]. split; [now destruct (ecc_algs L)|].
    apply Forall2_app.
    - unfold ecc_algs. clear - W Fc. induction W as [|o x l l' N W IH]; cbn [map]; constructor; [|exact IH].
      left. split; [reflexivity|]. exists (enc (l_curve L) o), o. split; [reflexivity|]. split; [apply Fc | exact N].
    - constructor; [|constructor; [|constructor]]; right; right; (split; [discriminate|]); cbn [plain a_oid]; auto.
  Qed.

  Lemma round_passphrase : it e = id_revPassphrase -> passphrase_response L m n = Ok tt.
  Proof.
    intros T. destruct (single _ _ _ _ _ _ _ _ Q P) as (i & Ei & H). unfold h_entry in H. rewrite T in H.
    change (h_passphrase L q s e = (s', Ok i)) in H. unfold h_passphrase in H.
    match type of H with match ?r with _ => _ end = _ => destruct r; [|discriminate] end.
    assert (X : i = {| it := id_revPassphrase; iv := None |}) by congruence. subst i.
    apply passphrase_iff. split; [exact R|]. eexists _, _. split; [rewrite M; exact Ei|]. split; reflexivity.
  Qed.

  Lemma round_crl c : it e = id_currentCRL -> e_crl E 0%nat = Ok (enc (l_crl L) c) -> faithful (l_crl L) -> l_crl_lint L c = Ok tt -> current_crl L m n = Ok tt.
  Proof.
    intros T C Fc K. destruct round_answer as (i & H & A). unfold h_entry in H. rewrite T in H. apply pair_ok in H. destruct H as (_ & H).
    unfold h_crl in H. step H g G. rewrite C in H. cbn [bind] in H. injection H as <-. cbn [it iv] in A.
    apply current_iff. split; [exact R|]. do 2 eexists. split; [exact A|]. split; [apply Fc | exact K].
  Qed.

  Lemma round_certs must ee crlc chain :
    faithful (l_certs L) -> it e = id_caCerts -> n = SInt 1 -> chain_for L ee (f_chain F) chain -> l_openssl L chain crlc = Ok tt ->
    get_ca_certs L m must ee n crlc = Ok (Some chain).
  Proof.
    intros Fc T N C O. destruct (single _ _ _ _ _ _ _ _ Q P) as (i & Ei & _). destruct round_answer as (i' & H & A).
    unfold h_entry in H. rewrite T in H. assert (X : i' = h_ca_certs L F) by (apply pair_ok in H; destruct H; congruence). subst i'. cbn [h_ca_certs it iv] in A.
    apply ca_certs_iff. destruct R as (B & _). split; [exact B|]. split; [rewrite M, Ei; exact N|].
    do 3 eexists. split; [exact A|]. split; [apply Fc|]. split; assumption.
  Qed.

  Lemma round_update old :
    faithful (l_update L) -> it e = id_rootCaCert ->
    (forall u, e_update E = Ok u -> consistent L u old) -> root_update L m (Some old) n = Ok tt.
  Proof.
    intros Fu T C. destruct round_answer as (i & H & A). unfold h_entry in H. rewrite T in H. apply pair_ok in H. destruct H as (_ & H).
    apply update_iff. split; [exact R|]. unfold h_root in H. destruct (iv e).
    - step H c D. destruct (bytes_eqb c (f_root F)).
      + step H u U. injection H as <-. cbn [it iv] in A. right. do 2 eexists. split; [exact A|]. split; [apply Fu | now apply C].
      + injection H as <-. now left.
    - step H u U. injection H as <-. cbn [it iv] in A. right. do 2 eexists. split; [exact A|]. split; [apply Fu | now apply C].
  Qed.
End Round.

(** ** CRL update *)

Lemma status_some L F E x i c :
  crl_status L F E x i = Ok (Some c) <-> names_ca L F x /\ outdated E x /\ e_crl E i = Ok c.
Proof.
  unfold crl_status, names_ca, outdated. destruct x as [src tm]; cbn [s_src s_time].
  assert (G : forall r : result bool,
     (let! ours := r in
      if negb ours then Ok None else
      match tm with
      | None => let! c := e_crl E i in Ok (Some c)
      | Some t => if 90000 * 1000000 <? e_now E - t then let! c := e_crl E i in Ok (Some c) else Ok None
      end) = Ok (Some c) <-> r = Ok true /\ match tm with None => True | Some t => e_now E - t > 25 * 3600 * 1000000 end /\ e_crl E i = Ok c).
  { intros [[|]|x]; cbn [bind negb].
    - destruct tm as [t|].
      + destruct (Z.ltb_spec (90000 * 1000000) (e_now E - t)).
        * rewrite bind_iff. split; [intros (d & D & H1); split; [reflexivity|]; split; [lia | congruence] | intros (_ & _ & H1); eauto].
        * split; [discriminate | intros (_ & H1 & _); lia].
      + rewrite bind_iff. split; [intros (d & D & H1); repeat split; congruence | intros (_ & _ & H1); eauto].
    - split; [discriminate | intros (H1 & _); discriminate].
    - split; [discriminate | intros (H1 & _); discriminate]. }
  destruct src as [nm|nm|nm].
  - rewrite G. destruct (l_find L nm None) as [[|]|]; cbn [bind].
    + tauto.
    + destruct (l_text L nm); cbn [bind]; split; intros (H1 & _); discriminate.
    + tauto.
  - apply G.
  - rewrite G. destruct (l_rel L nm); split; intros (H1 & H2); split; auto; discriminate.
Qed.

Lemma statuses_in L F E l i cs :
  (forall j b, e_crl E j = Ok b -> b <> []) ->
  crl_statuses L F E l i = Ok cs ->
  (forall c, In c cs -> exists j x, e_crl E j = Ok c /\ In x l /\ names_ca L F x /\ outdated E x) /\
  ((exists x, In x l /\ names_ca L F x /\ outdated E x) -> cs <> []).
Proof.
  intros NE. revert i cs. induction l as [|x l IH]; intros i cs H; cbn [crl_statuses] in H.
  - assert (cs = []) by congruence. subst. split; [intros c [] | intros (x & [] & _)].
  - step H o HO. step H cs' C. destruct (IH _ _ C) as (I1 & I2). destruct o as [[|z c]|].
    + apply status_some in HO. destruct HO as (_ & _ & HO). apply NE in HO. contradiction.
    + injection H as <-. apply status_some in HO. destruct HO as (H1 & H2 & H3). split; [|discriminate].
      intros d [<- | I]; [exists i, x; repeat split; auto; now left|]. destruct (I1 _ I) as (j & y & X1 & X2 & X3). exists j, y. split; [exact X1|]. split; [now right | exact X3].
    + injection H as <-. split.
      * intros d I. destruct (I1 _ I) as (j & y & X1 & X2 & X3). exists j, y. split; [exact X1|]. split; [now right | exact X3].
      * intros (y & [-> | I] & N & O); [|apply I2; eauto].
        exfalso. assert (G : forall c, e_crl E i <> Ok c).
        { intros c Ec. assert (crl_status L F E y i = Ok (Some c)) by (apply status_some; auto). congruence. }
        unfold crl_status in HO. step HO ours OU. destruct ours; cbn [negb] in HO.
        { destruct (s_time y) as [t|] eqn:Tm.
          - unfold outdated in O. rewrite Tm in O. destruct (Z.ltb_spec (90000 * 1000000) (e_now E - t)); [|lia]. step HO c Ec. discriminate.
          - step HO c Ec. discriminate. }
        unfold names_ca in N. destruct (s_src y); [|congruence|congruence]. rewrite N in OU. discriminate.
Qed.

Lemma dedup_in l c : In c (dedup l) <-> In c l.
Proof.
  induction l as [|x l IH]; cbn [dedup]; [reflexivity|]. destruct (mem x l) eqn:E.
  - rewrite IH. split; [now right|]. intros [<- | I]; [|exact I]. unfold mem in E. apply existsb_exists in E.
    destruct E as (y & I & B). apply bytes_eqb_iff in B. now subst.
  - cbn [In]. now rewrite IH.
Qed.

Lemma crls_answer L F E e i cur :
  faithful (l_crls L) -> crls_good L E cur -> h_crls L F E e = Ok i ->
  exists b l, iv e = Some b /\ reads (l_stats L) b l /\ l <> [] /\
    ((exists x, In x l /\ names_ca L F x /\ outdated E x) ->
       exists b' ds, iv i = Some b' /\ reads (l_crls L) b' ds /\ ds <> [] /\ Forall (fun c => c = cur) ds) /\
    (~ (exists x, In x l /\ names_ca L F x /\ outdated E x) -> iv i = None).
Proof.
  intros Fc Gd H. unfold h_crls in H. step H g G. step H l D. apply mock_iff in D. destruct D as (b & V & RD).
  step H g' G'. apply guard_iff in G'. step H cs C. exists b, l. split; [exact V|]. split; [exact RD|].
  split; [intros ->; discriminate|].
  assert (NE : forall j c, e_crl E j = Ok c -> c <> []).
  { intros j c Ec. destruct (Gd j) as (d & D1 & D2 & _). congruence. }
  destruct (statuses_in _ _ _ _ _ _ NE C) as (I1 & I2). split.
  - intros Ex. specialize (I2 Ex). destruct cs as [|c0 cs0]; [contradiction|].
    set (cs := c0 :: cs0) in *. step H ds DS. injection H as <-. cbn [iv]. exists (enc (l_crls L) ds), ds. split; [reflexivity|]. split; [apply Fc|].
    apply mapM_iff in DS. split.
    + intros ->. assert (Y : In c0 (dedup cs)) by (apply dedup_in; now left). destruct (dedup cs); [exact Y | inversion DS].
    + assert (W : forall c, In c (dedup cs) -> exists j, e_crl E j = Ok c).
      { intros c I. apply (proj1 (dedup_in cs c)) in I. destruct (I1 _ I) as (j & _ & X & _). eauto. }
      clear - DS W Gd. induction DS as [|c d l ds X DS IH]; constructor.
      * destruct (W c (or_introl eq_refl)) as (j & Ej). destruct (Gd j) as (b & B1 & _ & B2). apply mock_iff in X. destruct X as (b' & Eb & X).
        unfold reads in *. assert (b' = c) by congruence. assert (b = c) by congruence. subst. congruence.
      * apply IH. intros c' I. apply W. now right.
  - intros Nx. destruct cs as [|c cs]; [injection H as <-; reflexivity|]. exfalso. apply Nx.
    destruct (I1 c (or_introl eq_refl)) as (j & x & _ & X). exists x. exact X.
Qed.
