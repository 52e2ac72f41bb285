From Coq Require Import String.
From Verif Require Import Prelude CertChainModel CertChainSpec CertChainProofs.

Theorem build_cmp_chain_spec E extra ca_pubs issued ee for_issued must ch :
  build_cmp_chain E extra ca_pubs issued ee for_issued must = Ok ch ->
  exists certs c, extra = Some certs /\
    (if for_issued then issued = Ok c else ee = Some c \/ (ee = None /\ exists l, certs = c :: l)) /\
    build_chain_from_list E c
      (if for_issued then certs ++ match ca_pubs with Some l => l | None => [] end else certs)
      (if for_issued then false else must) = Ok ch.
Proof.
  unfold build_cmp_chain. destruct extra as [certs|]; [|discriminate]. destruct for_issued.
  - destruct issued as [c|]; cbn [bind]; [|discriminate]. intros H. exists certs, c.
    split; [reflexivity|]. split; [reflexivity|]. destruct ca_pubs; [exact H|]. rewrite app_nil_r. exact H.
  - destruct ee as [c|].
    + cbn [bind]. intros H. exists certs, c. auto.
    + destruct certs as [|c l]; cbn [bind]; [discriminate|]. intros H. exists (c :: l), c. split; [reflexivity|].
      split; [right; eauto|exact H].
Qed.

Lemma in_extra_position extra c : In c extra -> exists k, get_cert_index c extra = Ok k.
Proof.
  intros H. unfold get_cert_index. generalize O. induction extra as [|x extra IH]; [destruct H|]. intros k. cbn [index_from].
  destruct (id_eqb (cert_id x) (cert_id c)) eqn:B; [eauto|].
  destruct H as [->|H]; [|apply (IH H)].
  assert (id_eqb (cert_id c) (cert_id c) = true) by (apply id_eqb_iff; split; reflexivity). congruence.
Qed.

Lemma ordered_total extra chain : chain <> [] -> incl chain extra ->
  exists b, check_single_chain_is_ordered extra chain false = Ok b.
Proof.
  intros N I. unfold check_single_chain_is_ordered.
  assert (forallb (fun c => is_ok (get_cert_index c extra)) chain = true) as F.
  { apply forallb_forall. intros c C. destruct (in_extra_position extra c (I c C)) as [k K]. rewrite K. reflexivity. }
  rewrite F. cbn [guard bind]. apply positions_exist in F. destruct F as [ps F].
  destruct F as [|c p rest ps P Q]; [congruence|]. apply get_index_iff in P. rewrite P. cbn [bind].
  apply (proj2 (order_loop_iff extra rest ps p Q)).
Qed.

Lemma protection_iff E m extra allow :
  x_extra m = Some extra -> (forall c i, In c extra -> In i extra -> checkable E c i) ->
  (check_cmp_protection_for_extra_certs E m allow = Ok tt <->
   x_prot m = Ok tt /\ x_verify m = Ok tt /\ extra <> []).
Proof.
  intros X K. unfold check_cmp_protection_for_extra_certs. rewrite X.
  destruct (x_prot m) as [[]|]; cbn [bind]; [|split; [discriminate|intros [H _]; discriminate]].
  destruct (List.length extra =? 1)%nat eqn:L.
  - apply Nat.eqb_eq in L. split; [|tauto]. intros H. split; [reflexivity|]. split; [exact H|]. intros ->. discriminate.
  - destruct (x_verify m) as [[]|]; cbn [bind]; [|split; [discriminate|intros [_ [H _]]; discriminate]].
    destruct extra as [|c extra]; cbn [bind]; [split; [discriminate|intros [_ [_ H]]; congruence]|].
    split; [intros _; repeat split; discriminate|]. intros _. cbn [build_cmp_chain bind].
    destruct (build_chain_total E c (c :: extra) false) as [[ch B]|[B _]]; [|rewrite B|discriminate].
    { intros a i A I. apply K; [destruct A as [<-|A]; [left; reflexivity|exact A]|destruct I as [<-|I]; [left; reflexivity|exact I]]. }
    cbn [bind]. destruct (build_chain_spec _ _ _ _ _ B) as [rest [-> [C _]]].
    pose proof (consecutive_incl _ _ _ _ C) as Inc.
    destruct (ordered_total (c :: extra) (c :: rest)) as [b O]; [discriminate| |rewrite O; reflexivity].
    intros y [<-|Y]; [left; reflexivity|exact (Inc y Y)].
Qed.

Lemma loop_first E k pool c r : chain_loop E (S k) pool c = Ok r ->
  match r with
  | [] => no_issuer E pool c
  | i :: _ => first_issuer E pool c i
  end.
Proof.
  cbn [chain_loop]. destruct (find_signer E c pool) as [[i|]|] eqn:F; cbn [bind]; try discriminate.
  - apply find_signer_some in F. destruct (self_issued i).
    + intros H. injection H as <-. exact F.
    + destruct (chain_loop E k pool i); cbn [bind]; [|discriminate]. intros H. injection H as <-. exact F.
  - intros H. pose proof (find_signer_none _ _ _ F) as N. destruct (self_issued c).
    + injection H as <-. exact N.
    + rewrite (loop_none _ _ _ _ F) in H. injection H as <-. exact N.
Qed.

Lemma chain_second E ee pool ch : build_chain_from_list E ee pool false = Ok ch ->
  match ch with
  | _ :: i :: _ => ~ signed_by E ee ee /\ first_issuer E pool ee i
  | _ => signed_by E ee ee \/ no_issuer E pool ee
  end.
Proof.
  unfold build_chain_from_list. destruct (check_is_cert_signer E ee ee) as [[|]|] eqn:S; cbn [bind]; try discriminate.
  - intros H. injection H as <-. left. apply signer_true, S.
  - rewrite Nat.add_1_r. destruct (chain_loop E (Datatypes.S (List.length pool)) pool ee) as [r|] eqn:L; cbn [bind]; [|discriminate].
    intros H. assert (ch = ee :: r) as -> by (destruct (negb _); congruence).
    apply loop_first in L. destruct r; [right; exact L|]. split; [apply signer_false, S|exact L].
Qed.

Lemma first_issuer_unique E pool c i j : first_issuer E pool c i -> first_issuer E pool c j -> i = j.
Proof.
  intros [S1 [b [a [-> N1]]]] [S2 [b2 [a2 [E2 N2]]]]. revert b2 E2 N2.
  induction b as [|x b IH]; intros [|y b2] E2 N2; cbn in E2; injection E2 as X Y.
  - exact X.
  - subst. exfalso. apply (N2 y); [left; reflexivity|exact S1].
  - subst. exfalso. apply (N1 j); [left; reflexivity|exact S2].
  - subst. apply (IH (fun z Z => N1 z (or_intror Z)) b2 Y (fun z Z => N2 z (or_intror Z))).
Qed.

Lemma sig_part E m extra allow :
  x_extra m = Some extra -> (forall c i, In c extra -> In i extra -> checkable E c i) ->
  ((let! s := x_sig m in
    if s then check_cmp_protection_for_extra_certs E m allow else Ok tt) = Ok tt <->
   x_sig m = Ok false \/ (x_sig m = Ok true /\ x_prot m = Ok tt /\ x_verify m = Ok tt /\ extra <> [])).
Proof.
  intros X K. pose proof (protection_iff E m extra allow X K) as P.
  destruct (x_sig m) as [[|]|]; cbn [bind].
  - rewrite P. split; [auto|]. intros [H|H]; [discriminate|tauto].
  - split; [auto|reflexivity].
  - split; [discriminate|]. intros [H|[H _]]; discriminate.
Qed.

Theorem extra_response_iff E eku m extra issued allow :
  x_type m = Mcert_response -> x_extra m = Some extra -> x_issued m = Ok issued ->
  (forall c i, In c (issued :: extra) -> In i (issued :: extra) -> checkable E c i) ->
  (validate_extra_certs E eku m allow = Ok tt <->
   ~ signed_by E issued issued /\
   (exists i, first_issuer E extra issued i /\ eku i = Ok tt) /\
   (x_sig m = Ok false \/
    (x_sig m = Ok true /\ x_prot m = Ok tt /\ x_verify m = Ok tt /\ extra <> []))).
Proof.
  intros T X I K. unfold validate_extra_certs. rewrite T, X, I. cbn [bind build_cmp_chain].
  destruct (build_chain_total E issued extra false K) as [[ch B]|[B _]]; [|discriminate].
  rewrite B. cbn [bind]. pose proof (chain_second _ _ _ _ B) as CS.
  rewrite <- (sig_part E m extra allow X) by (intros c i C J; apply K; right; assumption).
  destruct (build_chain_spec _ _ _ _ _ B) as [rest [-> [C _]]].
  destruct rest as [|i rest].
  - cbn [bind]. split; [discriminate|]. intros [N [[i [F _]] _]]. apply first_issuer_in in F. destruct F as [F1 F2].
    destruct CS as [S|NI]; [contradiction|]. exfalso. exact (NI i F1 F2).
  - destruct CS as [N F]. destruct (eku i) as [[]|] eqn:Eku; cbn [bind].
    + pose proof (consecutive_incl _ _ _ _ C) as Inc.
      destruct (ordered_total extra (i :: rest)) as [b O]; [discriminate|exact Inc|].
      change (check_single_chain_is_ordered extra (issued :: i :: rest) true)
        with (check_single_chain_is_ordered extra (i :: rest) false).
      rewrite O. cbn [bind]. split.
      * intros H. split; [exact N|]. split; [exists i; auto|exact H].
      * tauto.
    + split; [discriminate|]. intros [_ [[j [F2 Ej]] _]]. rewrite (first_issuer_unique _ _ _ _ _ F F2) in Eku. congruence.
Qed.

Theorem extra_other_iff E eku m extra allow :
  x_type m <> Mcert_response -> x_extra m = Some extra ->
  (forall c i, In c extra -> In i extra -> checkable E c i) ->
  (validate_extra_certs E eku m allow = Ok tt <->
   x_sig m = Ok false \/ (x_sig m = Ok true /\ x_prot m = Ok tt /\ x_verify m = Ok tt /\ extra <> [])).
Proof.
  intros T X K. rewrite <- (sig_part E m extra allow X K). unfold validate_extra_certs. rewrite X.
  destruct (x_type m); [congruence| |]; reflexivity.
Qed.

Theorem extra_absent_iff E eku m allow :
  x_extra m = None ->
  (validate_extra_certs E eku m allow = Ok tt <->
   x_type m = Mshort \/
   (x_type m = Mother /\ (x_sig m = Ok false \/ (x_sig m = Ok true /\ x_prot m = Ok tt /\ allow = true)))).
Proof.
  intros X. unfold validate_extra_certs, check_cmp_protection_for_extra_certs. rewrite X.
  destruct (x_type m); cbn [bind].
  - split; [discriminate|]. intros [H|[H _]]; discriminate.
  - split; auto.
  - destruct (x_sig m) as [[|]|]; cbn [bind].
    + destruct (x_prot m) as [[]|]; cbn [bind].
      * destruct allow; split; try discriminate; auto; try (intros [H|[_ [H|[_ [_ H]]]]]; discriminate).
        intros _. right. auto.
      * split; [discriminate|]. intros [H|[_ [H|[_ [H _]]]]]; discriminate.
    + split; auto.
    + split; [discriminate|]. intros [H|[_ [H|[H _]]]]; discriminate.
Qed.

Definition tolerated (r : result unit) : Prop :=
  r = Err EValueError \/ r = Err EUnicode \/ r = Err EInvalidSignature \/ r = Err EInvalidAltSignature.

Theorem right_pos_iff v : forall extra k,
  find_right_cert_pos v extra = Ok (Some k) <->
  (exists c, nth_error extra k = Some c /\ v c = Ok tt) /\
  forall j c, (j < k)%nat -> nth_error extra j = Some c ->
    v c = Err EValueError \/ v c = Err EUnicode \/ v c = Err EInvalidSignature \/ v c = Err EInvalidAltSignature.
Proof.
  induction extra as [|x extra IH]; intros k; cbn [find_right_cert_pos].
  - split; [discriminate|]. intros [[c [H _]] _]. destruct k; discriminate.
  - assert (forall n, tolerated (v x) -> 
      ((let! o := find_right_cert_pos v extra in Ok (option_map S o)) = Ok (Some n) <->
       (exists c, nth_error (x :: extra) n = Some c /\ v c = Ok tt) /\
       forall j c, (j < n)%nat -> nth_error (x :: extra) j = Some c -> tolerated (v c))) as R.
    { intros n T. destruct n as [|n].
      - split.
        + destruct (find_right_cert_pos v extra) as [[o|]|]; cbn; discriminate.
        + intros [[c [H V]] _]. injection H as <-. unfold tolerated in T. rewrite V in T. 
          destruct T as [T|[T|[T|T]]]; discriminate.
      - specialize (IH n). split.
        + intros H. assert (find_right_cert_pos v extra = Ok (Some n)) as F.
          { destruct (find_right_cert_pos v extra) as [[o|]|]; cbn in H; congruence. }
          apply IH in F. destruct F as [F1 F2]. split; [exact F1|].
          intros [|j] c J C; [injection C as <-; exact T|]. apply (F2 j c); [lia|exact C].
        + intros [F1 F2]. assert (find_right_cert_pos v extra = Ok (Some n)) as F.
          { apply IH. split; [exact F1|]. intros j c J C. apply (F2 (S j) c); [lia|exact C]. }
          rewrite F. reflexivity. }
    unfold tolerated in R.
    assert (forall e, v x = Err e -> (forall n, (exists c, nth_error (x :: extra) n = Some c /\ v c = Ok tt) /\
       (forall j c, (j < n)%nat -> nth_error (x :: extra) j = Some c ->
         v c = Err EValueError \/ v c = Err EUnicode \/ v c = Err EInvalidSignature \/ v c = Err EInvalidAltSignature) ->
         v x = Err EValueError \/ v x = Err EUnicode \/ v x = Err EInvalidSignature \/ v x = Err EInvalidAltSignature)) as Q.
    { intros e V [|n] [[c [C D]] G]; [injection C as <-; congruence|]. apply (G O x); [lia|reflexivity]. }
    destruct (v x) as [[]|e] eqn:V.
    + split.
      * intros H. injection H as <-. split; [exists x; auto|]. intros j c J. lia.
      * intros [_ G]. destruct k as [|k]; [reflexivity|]. exfalso.
        destruct (G O x ltac:(lia) eq_refl) as [X|[X|[X|X]]]; congruence.
    + destruct e; try (apply R; auto; fail);
        (split; [discriminate|]; intros G; destruct (Q _ eq_refl k G) as [X|[X|[X|X]]]; discriminate).
Qed.

Lemma in_list_iff c l : cert_in_list c l = true <-> exists a, In a l /\ c_der a = c_der c.
Proof.
  unfold cert_in_list. rewrite existsb_exists. split; intros [a [I H]]; exists a; (split; [exact I|]).
  - apply bytes_eqb_iff in H. congruence.
  - apply bytes_eqb_iff. congruence.
Qed.

Lemma truststore_in a dir os allow : In a (load_truststore dir os allow) <->
  (exists l, dir = Some l /\ In a l) \/ (allow = true /\ In a os).
Proof.
  unfold load_truststore. rewrite in_app_iff. destruct dir as [l|], allow; cbn; split; intros H.
  - destruct H; [left; eauto|right; auto].
  - destruct H as [[l' [E H]]|[_ H]]; [injection E as <-; auto|auto].
  - destruct H as [H|[]]; left; eauto.
  - destruct H as [[l' [E H]]|[H _]]; [injection E as <-; auto|discriminate].
  - destruct H as [[]|H]; auto.
  - destruct H as [[l' [E H]]|[_ H]]; [discriminate|auto].
  - destruct H as [[]|[]].
  - destruct H as [[l' [E H]]|[H _]]; discriminate.
Qed.

Theorem anchors_iff certs dir os allow :
  certificates_are_trustanchors certs dir os allow = Ok tt <->
  (exists a, (exists l, dir = Some l /\ In a l) \/ (allow = true /\ In a os)) /\
  forall c, In c certs -> exists a, c_der a = c_der c /\
    ((exists l, dir = Some l /\ In a l) \/ (allow = true /\ In a os)).
Proof.
  unfold certificates_are_trustanchors.
  assert (forall b1 b2, (let! _ := guard b1 EValueError in guard b2 ESignerNotTrusted) = Ok tt <-> b1 = true /\ b2 = true) as G.
  { intros [|] [|]; cbn; split; intros H; try tauto; try discriminate; destruct H; discriminate. }
  rewrite G. rewrite forallb_forall.
  assert (negb (List.length (load_truststore dir os allow) =? 0)%nat = true <->
          exists a, In a (load_truststore dir os allow)) as N.
  { destruct (load_truststore dir os allow) as [|a l]; cbn; split; intros H; try discriminate; try reflexivity.
    - destruct H as [a []].
    - exists a; auto. }
  rewrite N. split; intros [[a A] B]; (split; [exists a; apply truststore_in, A|]); intros c C; specialize (B c C).
  - apply in_list_iff in B. destruct B as [x [X Y]]. exists x. split; [exact Y|apply truststore_in, X].
  - apply in_list_iff. destruct B as [x [X Y]]. exists x. split; [apply truststore_in, Y|exact X].
Qed.

Theorem trusted_iff chain ee l os allow openssl usage :
  certificates_must_be_trusted (ee :: chain) (Some l) os allow openssl usage = Ok tt <->
   (exists a, c_der a = c_der (last chain ee) /\ (In a l \/ (allow = true /\ In a os))) /\
   (chain <> [] -> openssl (ee :: chain) = Ok tt /\ forall u, usage = Some u -> u ee = Ok tt).
Proof.
  unfold certificates_must_be_trusted. rewrite last_cons_default.
  assert (cert_in_list (last chain ee) (load_truststore (Some l) os allow) = true <->
          exists a, c_der a = c_der (last chain ee) /\ (In a l \/ (allow = true /\ In a os))) as T.
  { rewrite in_list_iff. split; intros [a [A B]]; exists a.
    - split; [exact B|]. apply truststore_in in A. destruct A as [[l' [E A]]|A]; [injection E as <-; auto|auto].
    - split; [|exact A]. apply truststore_in. destruct B as [B|B]; [left; eauto|auto]. }
  rewrite <- T.
  destruct (cert_in_list (last chain ee) (load_truststore (Some l) os allow)); cbn [guard bind];
    [|split; [discriminate|intros [H _]; discriminate]].
  destruct chain as [|c chain].
  - split; [|reflexivity]. intros _. split; [reflexivity|congruence].
  - cbn [List.length Nat.eqb]. destruct (openssl (ee :: c :: chain)) as [[]|]; cbn [bind].
    + destruct usage as [u|].
      * split.
        -- intros H. split; [reflexivity|]. intros _. split; [reflexivity|]. intros u' X. injection X as <-. exact H.
        -- intros [_ H]. apply (proj2 (H ltac:(discriminate)) u eq_refl).
      * split; [|reflexivity]. intros _. split; [reflexivity|]. intros _. split; [reflexivity|]. intros u X. discriminate.
    + split; [discriminate|]. intros [_ H]. destruct (H ltac:(discriminate)). discriminate.
Qed.

Lemma crl_signer_spec iss v certs s : find_crl_signer iss v certs = Ok s ->
  In s certs /\ c_subject s = iss /\ v s = Ok tt.
Proof.
  induction certs as [|c certs IH]; cbn [find_crl_signer]; [discriminate|].
  destruct (bytes_eqb iss (c_subject c)) eqn:B.
  - apply bytes_eqb_iff in B. destruct (v c) as [[]|e] eqn:V.
    + intros H. injection H as <-. split; [left; reflexivity|]. auto.
    + intros H. assert (find_crl_signer iss v certs = Ok s) as F by (destruct e; try discriminate; exact H).
      destruct (IH F) as [X Y]. split; [right; exact X|exact Y].
  - intros H. destruct (IH H) as [X Y]. split; [right; exact X|exact Y].
Qed.

Theorem crl_chain_spec E iss v certs dir os allow ch :
  build_crl_chain E iss v certs dir os allow = Ok ch ->
  exists signer rest, ch = signer :: rest /\ c_subject signer = iss /\ v signer = Ok tt /\
    (In signer certs \/ (exists l, dir = Some l /\ In signer l) \/ (allow = true /\ In signer os)) /\
    consecutive (signed_by E) ch.
Proof.
  unfold build_crl_chain.
  destruct (find_crl_signer iss v (certs ++ load_truststore dir os allow)) as [s|] eqn:F; cbn [bind]; [|discriminate].
  apply crl_signer_spec in F. destruct F as [I [S V]]. intros H.
  destruct (build_chain_spec _ _ _ _ _ H) as [rest [-> [C _]]]. exists s, rest.
  split; [reflexivity|]. split; [exact S|]. split; [exact V|]. split.
  - apply in_app_iff in I. destruct I as [I|I]; [auto|]. right. apply truststore_in, I.
  - clear -C. revert C. generalize s. induction rest as [|x rest IH]; intros y C; [exact I|].
    destruct C as [[C1 _] C2]. split; [exact C1|exact (IH x C2)].
Qed.
