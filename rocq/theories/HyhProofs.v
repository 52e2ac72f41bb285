(** Proofs about the handlers for hybrid certificates. *)
From Coq Require Import String Lia.
From Verif Require Import Prelude PreludeFacts PyStr ProtMac GenModel GenProofs HyhModel HyhSpec.
From Verif Require MigModel CAModel.
Open Scope string_scope.
Open Scope Z_scope.
Open Scope list_scope.
Local Notation length := List.length.

Lemma first_iff q c : first q = Ok c <-> signer q c.
Proof.
  unfold first, signer. destruct (h_extra q) as [|x l]; split; try discriminate.
  - intros (l & H). discriminate.
  - intros H. injection H as ->. eauto.
  - intros (l' & H). now injection H as -> _.
Qed.
Lemma ok_neg b e : guard (negb b) e = Ok tt <-> b = false.
Proof. destruct b; cbn; split; congruence. Qed.

Lemma cham_iff V q both : cham_revoked V q both = Ok tt <->
  exists c d, signer q c /\ v_delta V c = Ok d /\ valid V c /\ (both = true -> valid V d).
Proof.
  unfold cham_revoked. split.
  - intros H. step H c E. step H d Ed. step H u1 G1. step H u2 G2. apply first_iff in E. destruct u1, u2. apply ok_neg in G1, G2.
    exists c, d. repeat split; auto.
    + destruct both; [|discriminate]. cbn [negb] in H. step H u3 G3. destruct u3. now apply ok_neg in G3.
    + destruct both; [|discriminate]. cbn [negb] in H. step H u3 G3. now apply ok_neg in H.
  - intros (c & d & S1 & D & (A & B) & F). apply first_iff in S1. rewrite S1. cbn [bind]. rewrite D. cbn [bind]. rewrite A, B. cbn [negb guard bind].
    destruct both; [|reflexivity]. destruct (F eq_refl) as (A' & B'). cbn [negb]. rewrite A', B'. reflexivity.
Qed.
Lemma cham_refused V q both c d : signer q c -> v_delta V c = Ok d -> ~ (valid V c /\ (both = true -> valid V d)) ->
  cham_revoked V q both = Err ECertRevoked.
Proof.
  intros S1 D N. unfold cham_revoked. apply first_iff in S1. rewrite S1. cbn [bind]. rewrite D. cbn [bind].
  destruct (v_revoked V c) eqn:A; [reflexivity|]. cbn [negb guard bind]. destruct (v_updated V c) eqn:B; [reflexivity|]. cbn [negb guard bind].
  destruct both.
  - cbn [negb]. destruct (v_revoked V d) eqn:A'; [reflexivity|]. cbn [negb guard bind]. destruct (v_updated V d) eqn:B'; [reflexivity|].
    exfalso. apply N. repeat split; auto.
  - exfalso. apply N. repeat split; auto; discriminate.
Qed.
Lemma delta_key_iff V q : delta_key_revoked V q = Ok tt <-> exists k n, v_delta_key V q = Ok (k, n) /\ v_key_bad V k n = false.
Proof.
  unfold delta_key_revoked. split.
  - intros H. step H x E. apply ok_neg in H. destruct x as (k & n). eauto.
  - intros (k & n & E & H). rewrite E. cbn [bind fst snd]. rewrite H. reflexivity.
Qed.
Lemma delta_key_refused V q k n : v_delta_key V q = Ok (k, n) -> v_key_bad V k n = true -> delta_key_revoked V q = Err EBadCertTemplate.
Proof. intros E H. unfold delta_key_revoked. rewrite E. cbn [bind fst snd]. now rewrite H. Qed.

Lemma request_iff V q both : revoked_for_request V q both = Ok tt <->
  exists c, signer q c /\ (is_chameleon V c = true -> exists d, v_delta V c = Ok d /\ valid V c /\ (both = true -> valid V d)).
Proof.
  unfold revoked_for_request. split.
  - intros H. step H c E. apply first_iff in E. exists c. split; [exact E|]. intros K. rewrite K in H. apply cham_iff in H.
    destruct H as (c' & d & (l' & S') & D & R). destruct E as (l & E). rewrite E in S'. injection S' as <- _. eauto.
  - intros (c & S1 & H). pose proof S1 as S2. apply first_iff in S2. rewrite S2. cbn [bind]. destruct (is_chameleon V c); [|reflexivity].
    apply cham_iff. destruct (H eq_refl) as (d & D & R). exists c, d. tauto.
Qed.

(** The names of the kinds. *)
Lemma kinds V c k : kind V c (Some k) -> In k ["composite-sig"; "chameleon"; "sun-hybrid"; "catalyst"; "cert-discovery"; "related-cert"].
Proof.
  unfold kind, MigModel.is_hybrid. intros H. cbn [In].
  destruct (MigModel.k_composite _); [injection H as <-; tauto|].
  destruct (MigModel.has _ "id_ce_deltaCertificateDescriptor"); [injection H as <-; tauto|].
  destruct (MigModel.has _ "id_altSignatureExt"); [injection H as <-; tauto|].
  destruct (_ || _); [injection H as <-; tauto|].
  step H d D. destruct d; [injection H as <-; tauto|].
  destruct (MigModel.has _ "id_relatedCert"); [injection H as <-; tauto|]. discriminate.
Qed.

Lemma issuing_iff V q both : revoked_for_issuing V q both = Ok tt <->
  exists c, signer q c /\
  (kind V c None \/ kind V c (Some "catalyst") \/ kind V c (Some "composite-sig") \/
   (kind V c (Some "chameleon") /\ exists d x, v_delta V c = Ok d /\ valid V c /\ valid V d /\ v_delta_key V q = Ok x) \/
   (kind V c (Some "sun-hybrid") /\ exists f, v_form4 V c = Ok f /\ v_revoked V f = false)).
Proof.
  unfold revoked_for_issuing. split.
  - intros H. step H c E. step H k K. apply first_iff in E. exists c. split; [exact E|]. destruct k as [k|]; [|left; exact K].
    pose proof (kinds V c k K) as D. cbn [In] in D. destruct D as [<- | [<- | [<- | [<- | [<- | [<- | []]]]]]].
    + right. right. left. exact K.
    + cbn in H. step H u1 G. step H x X. destruct u1. apply cham_iff in G. destruct G as (c' & d & (l' & S') & D & R & F).
      destruct E as (l & E). rewrite E in S'. injection S' as <- _. right. right. right. left. split; [exact K|]. exists d, x. auto 6.
    + cbn in H. step H f F. apply ok_neg in H. right. right. right. right. split; [exact K|]. eauto.
    + right. left. exact K.
    + cbn in H. discriminate.
    + cbn in H. discriminate.
  - intros (c & S1 & H). pose proof S1 as S2. apply first_iff in S2. rewrite S2. cbn [bind]. unfold kind in H.
    destruct H as [K | [K | [K | [(K & d & x & D & A & B & X) | (K & f & F & R)]]]]; rewrite K; cbn [bind].
    + reflexivity.
    + reflexivity.
    + reflexivity.
    + cbn. assert (G : cham_revoked V q true = Ok tt) by (apply cham_iff; exists c, d; tauto). rewrite G. cbn [bind]. rewrite X. reflexivity.
    + cbn. rewrite F. cbn [bind]. rewrite R. reflexivity.
Qed.
Lemma issuing_sun V q both c f : signer q c -> kind V c (Some "sun-hybrid") -> v_form4 V c = Ok f -> v_revoked V f = true ->
  revoked_for_issuing V q both = Err ECertRevoked.
Proof.
  intros S1 K F R. unfold revoked_for_issuing. apply first_iff in S1. rewrite S1. cbn [bind]. unfold kind in K. rewrite K. cbn. rewrite F. cbn [bind]. now rewrite R.
Qed.
Lemma issuing_names V q both c k : signer q c -> kind V c (Some k) -> k = "related-cert" \/ k = "cert-discovery" ->
  revoked_for_issuing V q both = Err ENotImplemented.
Proof.
  intros S1 K H. unfold revoked_for_issuing. apply first_iff in S1. rewrite S1. cbn [bind]. unfold kind in K. rewrite K. destruct H as [-> | ->]; reflexivity.
Qed.
Lemma issuing_unchecked V q both c k : signer q c -> kind V c (Some k) -> k = "catalyst" \/ k = "composite-sig" ->
  revoked_for_issuing V q both = Ok tt.
Proof. intros S1 K H. apply issuing_iff. exists c. destruct H as [-> | ->]; auto. Qed.
Lemma cham_keys V f q both : cham_revoked (with_keys V f) q both = cham_revoked V q both.
Proof. reflexivity. Qed.
Lemma issuing_keys V f q both : revoked_for_issuing (with_keys V f) q both = revoked_for_issuing V q both.
Proof. reflexivity. Qed.
Lemma issuing_both V q b b' : revoked_for_issuing V q b = revoked_for_issuing V q b'.
Proof.
  unfold revoked_for_issuing. destruct (first q) as [c|e]; [|reflexivity]. cbn [bind].
  destruct (MigModel.is_hybrid (v_looks V c)) as [[k|]|e] eqn:K; [|reflexivity|reflexivity]. cbn [bind].
  pose proof (kinds V c k K) as D. cbn [In] in D. destruct D as [<- | [<- | [<- | [<- | [<- | [<- | []]]]]]]; reflexivity.
Qed.
Lemma issuing_updates V f q both c : signer q c -> kind V c (Some "sun-hybrid") ->
  revoked_for_issuing (with_updates V f) q both = revoked_for_issuing V q both.
Proof.
  intros S1 K. unfold revoked_for_issuing. apply first_iff in S1. rewrite S1. cbn [bind]. unfold kind in K. cbn [with_updates v_looks v_form4 v_revoked].
  rewrite K. reflexivity.
Qed.

(** ** Sun hybrid *)

Lemma more o l : more_certs o (extended o l) l.
Proof. repeat split. Qed.
Lemma sign_mac L C q o both second a : by_mac L q a ->
  sign L C q o both second = l_protect L (ByMac (same_mac C a)) (extended o (opt second ++ c_chain C)).
Proof. intros (A & K). unfold sign. rewrite A. cbn [bind]. rewrite K. reflexivity. Qed.
Lemma sign_sig L C q o both second : not_by_mac L q ->
  sign L C q o both second = l_protect L (if both then ByBoth else ByTrad) (extended o (c_cert C :: opt second ++ tl (c_chain C))).
Proof.
  intros [A | (a & k & A & K & N)]; unfold sign; rewrite A; cbn [bind]; [reflexivity|]. rewrite K. cbn [bind]. now rewrite (proj2 (String.eqb_neq _ _) N).
Qed.
Lemma sign_both L f C q o second : sign (with_both L f) C q o false second = sign L C q o false second.
Proof.
  unfold sign. cbn [with_both l_kind l_protect]. destruct (h_alg q) as [a|]; [|reflexivity]. cbn [bind]. destruct (l_kind L a) as [k|e]; [|reflexivity]. cbn [bind].
  destruct (String.eqb k "mac"); reflexivity.
Qed.

Lemma build_iff L q n kl sl bad o c4 c1 : build L q n kl sl bad = Ok (o, (c4, c1)) <-> made L q n kl sl bad o c4 c1.
Proof.
  unfold build, made. destruct (String.eqb_spec (h_body q) "p10cr") as [E|E].
  - split.
    + intros H. step H u U. step H x X. step H r R. destruct u. injection H as -> ->. cbn [fst] in R. left. auto.
    + intros [(_ & U & X & R) | [(I0 & _) | (E' & _)]].
      * rewrite U. cbn [bind]. rewrite X. cbn [bind fst]. rewrite R. reflexivity.
      * exfalso. rewrite E in I0. cbn [In] in I0. decompose [or] I0; try discriminate; contradiction.
      * congruence.
  - destruct (str_mem (h_body q) ["ir"; "cr"; "kur"; "crr"]) eqn:M.
    + apply str_mem_In in M. split.
      * intros H. step H k K. destruct k.
        -- step H u U. step H x X. step H r R. destruct u. injection H as -> ->. cbn [fst] in R. right. left. auto.
        -- step H x X. step H r R. injection H as -> ->. cbn [fst] in R. unfold enc_response in R. rewrite (proj2 (String.eqb_neq _ _) E) in R.
           destruct (String.eqb_spec (h_body q) "ir") as [E'|E']; [|discriminate]. right. right. auto.
        -- discriminate.
      * intros [(E' & _) | [(_ & K & U & X & R) | (E' & K & X & R)]]; [contradiction | |].
        -- rewrite K. cbn [bind]. rewrite U. cbn [bind]. rewrite X. cbn [bind fst]. rewrite R. reflexivity.
        -- rewrite K. cbn [bind]. rewrite X. cbn [bind fst]. unfold enc_response. rewrite E'. cbn [String.eqb Ascii.eqb Bool.eqb]. rewrite R. reflexivity.
    + assert (M' : ~ In (h_body q) ["ir"; "cr"; "kur"; "crr"]) by (rewrite <- str_mem_In; congruence). split; [discriminate|].
      intros [(E' & _) | [(I0 & _) | (E' & _)]]; [contradiction | contradiction |]. exfalso. apply M'. rewrite E'. now left.
Qed.
Lemma build_kem L q n kl sl bad x : In (h_body q) ["cr"; "kur"; "crr"] -> l_key L q = Ok HybKem -> l_cert L q n kl sl false = Ok x ->
  build L q n kl sl bad = Err EPyAsn1.
Proof.
  intros B K X. unfold build.
  assert (E : String.eqb (h_body q) "p10cr" = false) by (apply String.eqb_neq; intros E; rewrite E in B; cbn [In] in B; decompose [or] B; try discriminate; contradiction).
  assert (E' : String.eqb (h_body q) "ir" = false) by (apply String.eqb_neq; intros E'; rewrite E' in B; cbn [In] in B; decompose [or] B; try discriminate; contradiction).
  rewrite E. assert (M : str_mem (h_body q) ["ir"; "cr"; "kur"; "crr"] = true) by (apply str_mem_In; now right). rewrite M, K. cbn [bind]. rewrite X. cbn [bind fst].
  unfold enc_response. rewrite E, E'. reflexivity.
Qed.
Lemma build_bad L q n kl sl bad : h_body q <> "p10cr" -> l_key L q = Ok HybKem -> build L q n kl sl bad = build L q n kl sl false.
Proof. intros B K. unfold build. rewrite (proj2 (String.eqb_neq _ _) B), K. reflexivity. Qed.
Lemma build_csr L q n kl sl kl' sl' bad : h_body q = "p10cr" -> build L q n kl sl bad = build L q n kl' sl' bad.
Proof. intros B. unfold build. rewrite B. reflexivity. Qed.

Lemma set_entry A (d : list (Z * A)) n v : entry d (set n v d) n v.
Proof.
  unfold entry, set. cbn [In]. split.
  - intros x. split.
    + intros [H | H]; [now injection H|]. apply filter_In in H. destruct H as (_ & H). cbn [fst] in H. rewrite Z.eqb_refl in H. discriminate.
    + intros ->. now left.
  - intros m x N. split.
    + intros [H | H]; [injection H as H _; congruence|]. now apply filter_In in H.
    + intros H. right. apply filter_In. split; [exact H|]. cbn [fst]. now rewrite (proj2 (Z.eqb_neq _ _) N).
Qed.
Lemma add_iff L s n c s' : add_to_state L s n c = Ok s' <->
  exists k g, l_alt_key L c = Ok (Some k) /\ l_alt_sig L c = Ok g /\
  s' = {| t_certs := set n c (t_certs s); t_keys := set n k (t_keys s); t_sigs := set n g (t_sigs s) |}.
Proof.
  unfold add_to_state. split.
  - intros H. step H k K. step H g G. destruct k as [k|]; [|discriminate]. injection H as <-. eauto.
  - intros (k & g & K & G & ->). rewrite K. cbn [bind]. rewrite G. reflexivity.
Qed.
Lemma add_publishes L s n c s' : add_to_state L s n c = Ok s' ->
  exists k g, l_alt_key L c = Ok (Some k) /\ l_alt_sig L c = Ok g /\ publishes s s' n c k g.
Proof. intros H. apply add_iff in H. destruct H as (k & g & K & G & ->). exists k, g. split; [exact K|]. split; [exact G|]. split; [|split]; apply set_entry. Qed.

(** What a request does: nothing, or one certificate is made and published and then the response is protected. *)
Lemma request_step L C s q n bad :
  (fst (process_request L C s q n bad) = s /\ exists e, snd (process_request L C s q n bad) = Err e) \/
  exists o c4 c1 k g, l_ids L q = Ok tt /\ made L q n (key_url L C n) (sig_url L C n) bad o c4 c1 /\
    l_alt_key L c1 = Ok (Some k) /\ l_alt_sig L c1 = Ok g /\ publishes s (fst (process_request L C s q n bad)) n c1 k g /\
    snd (process_request L C s q n bad) =
      if o_enc o then (let! r := sign L C q o false None in Ok (r, None, Some c4))
      else if h_implicit q then (let! r := sign L C q (confirmed o) false (Some c1) in Ok (r, Some c4, None))
      else (let! r := sign L C q o false (Some c1) in Ok (r, None, Some c4)).
Proof.
  unfold process_request, key_url, sig_url. destruct (l_ids L q) as [u|e] eqn:I0; [|left; cbn; eauto]. cbn [bind].
  destruct (build L q n _ _ bad) as [x|e] eqn:B; [|left; cbn; eauto]. destruct x as (o & c4 & c1). cbn [bind snd].
  destruct (add_to_state L s n c1) as [s'|e] eqn:A; [|left; cbn; eauto]. cbn [bind fst snd]. right. apply build_iff in B.
  destruct (add_publishes _ _ _ _ _ A) as (k & g & K & G & P). destruct u. exists o, c4, c1, k, g.
  split; [reflexivity|]. split; [exact B|]. split; [exact K|]. split; [exact G|]. split; [exact P|].
  destruct (o_enc o); [reflexivity|]. destruct (h_implicit q); reflexivity.
Qed.
Lemma request_makes L C s q n bad o c4 c1 k g : l_ids L q = Ok tt -> made L q n (key_url L C n) (sig_url L C n) bad o c4 c1 ->
  l_alt_key L c1 = Ok (Some k) -> l_alt_sig L c1 = Ok g ->
  publishes s (fst (process_request L C s q n bad)) n c1 k g /\
  snd (process_request L C s q n bad) =
      if o_enc o then (let! r := sign L C q o false None in Ok (r, None, Some c4))
      else if h_implicit q then (let! r := sign L C q (confirmed o) false (Some c1) in Ok (r, Some c4, None))
      else (let! r := sign L C q o false (Some c1) in Ok (r, None, Some c4)).
Proof.
  intros I0 B K G. apply build_iff in B. unfold key_url, sig_url in B. unfold process_request. rewrite I0. cbn [bind]. rewrite B. cbn [bind snd].
  destruct (add_to_state L s n c1) as [s'|e] eqn:A.
  - cbn [bind fst snd]. apply add_publishes in A. destruct A as (k' & g' & K' & G' & P). split; [congruence|].
    destruct (o_enc o); [reflexivity|]. destruct (h_implicit q); reflexivity.
  - exfalso. unfold add_to_state in A. rewrite K in A. cbn [bind] in A. rewrite G in A. discriminate.
Qed.

(** ** Serial numbers *)

Lemma known_iff s n : known s n = true <-> in_use s n.
Proof.
  unfold known, in_use. rewrite existsb_exists. split.
  - intros (m & M & E). apply Z.eqb_eq in E. subst m. apply in_map_iff in M. destruct M as ((m & c) & <- & H). cbn [fst]. eauto.
  - intros (c & H). exists n. split; [|apply Z.eqb_refl]. apply in_map_iff. exists (n, c). auto.
Qed.
Lemma draw_ok s r : forall k i last n, draw s r i k last = Ok n ->
  (exists j, (i <= j < i + k)%nat /\ n = r j /\ ~ in_use s n /\ forall j', (i <= j' < j)%nat -> in_use s (r j')) \/
  ((forall j, (i <= j < i + k)%nat -> in_use s (r j)) /\ Some n = match k with O => last | Datatypes.S k' => Some (r (i + k')%nat) end).
Proof.
  induction k as [|k IH]; intros i last n H; cbn [draw] in H.
  - right. split; [lia|]. destruct last; [|discriminate]. now injection H as ->.
  - destruct (known s (r i)) eqn:E.
    + apply known_iff in E. apply IH in H. destruct H as [(j & J & N & U & F) | (F & N)].
      * left. exists j. split; [lia|]. split; [exact N|]. split; [exact U|]. intros j' J'. destruct (Nat.eq_dec j' i) as [->|D]; [exact E | apply F; lia].
      * right. split; [intros j J; destruct (Nat.eq_dec j i) as [->|D]; [exact E | apply F; lia]|]. destruct k as [|k].
        -- injection N as ->. now rewrite Nat.add_0_r.
        -- rewrite N. f_equal. f_equal. lia.
    + injection H as <-. left. exists i. split; [lia|]. split; [reflexivity|]. split; [rewrite <- known_iff; congruence | intros j' J; lia].
Qed.
Lemma draw_total s r : forall k i last, k <> O \/ last <> None -> exists n, draw s r i k last = Ok n.
Proof.
  induction k as [|k IH]; intros i last H; cbn [draw].
  - destruct last; [eauto | destruct H; congruence].
  - destruct (known s (r i)); [|eauto]. apply IH. right. discriminate.
Qed.
Lemma serial_ok s r : exists n, serial_number s r = Ok n /\ chosen s r n.
Proof.
  unfold serial_number. destruct (draw_total s r 100 0 None) as (n & H); [left; discriminate|]. exists n. split; [rewrite H; reflexivity|].
  apply draw_ok in H. destruct H as [(j & J & N & U & F) | (F & N)].
  - left. exists j. split; [lia|]. split; [exact N|]. split; [exact U|]. intros j' J'. apply F. lia.
  - right. split; [intros j J; apply F; lia|]. now injection N as ->.
Qed.
Lemma serial_iff s r n : serial_number s r = Ok n <-> chosen s r n.
Proof.
  destruct (serial_ok s r) as (m & H & Cm). split; [intros E; congruence|]. intros Cn. rewrite H. f_equal.
  destruct Cm as [(i & I0 & Em & U & F) | (F & Em)], Cn as [(j & J & En & U' & F') | (F' & En)].
  - destruct (Nat.lt_trichotomy i j) as [L | [L | L]].
    + exfalso. apply U. rewrite Em. now apply F'.
    + congruence.
    + exfalso. apply U'. rewrite En. now apply F.
  - exfalso. apply U. rewrite Em. now apply F'.
  - exfalso. apply U'. rewrite En. now apply F.
  - congruence.
Qed.

(** ** The entry *)

Lemma admit_iff V L q : admit_request V L q = Ok None <-> passes V L q.
Proof.
  unfold admit_request, passes. split.
  - intros H. step H c E. step H k K. step H a A. step H t T. apply first_iff in E. exists c, k. split; [exact E|]. split; [exact K|].
    destruct (h_alg q) as [a'|] eqn:Q; [|discriminate]. injection A as ->. destruct (String.eqb_spec t "mac") as [->|N].
    + left. exists a. split; assumption.
    + right. split; [discriminate|]. split; [right; eauto 6|]. destruct (revoked_for_issuing V q false) as [[]|e]; [reflexivity | destruct e; discriminate].
  - intros (c & k & S1 & K & H). apply first_iff in S1. rewrite S1. cbn [bind]. unfold kind in K. rewrite K. cbn [bind].
    destruct H as [(a & A & T) | (N & [A | (a & t & A & T & D)] & R)].
    + rewrite A. cbn [bind]. rewrite T. reflexivity.
    + contradiction.
    + rewrite A. cbn [bind]. rewrite T. cbn [bind]. rewrite (proj2 (String.eqb_neq _ _) D), R. reflexivity.
Qed.
Lemma admit_revoked V L q e : admit_request V L q = Ok (Some e) <->
  e = ECertRevoked /\ h_alg q <> None /\ not_by_mac L q /\ (exists c k, signer q c /\ kind V c k) /\ revoked_for_issuing V q false = Err ECertRevoked.
Proof.
  unfold admit_request. split.
  - intros H. step H c E. step H k K. step H a A. step H t T. destruct (h_alg q) as [a'|] eqn:Q; [|discriminate]. injection A as ->.
    destruct (String.eqb_spec t "mac") as [->|N]; [discriminate|].
    destruct (revoked_for_issuing V q false) as [[]|e'] eqn:R; [discriminate|].
    destruct e'; try discriminate. injection H as <-. apply first_iff in E.
    split; [reflexivity|]. split; [discriminate|]. split; [right; eauto 6|]. split; [exists c, k; split; assumption | reflexivity].
  - intros (-> & N & M & (c & k & S1 & K) & R). destruct M as [A | (a & t & A & T & D)]; [contradiction|].
    apply first_iff in S1. rewrite S1. cbn [bind]. unfold kind in K. rewrite K. cbn [bind]. rewrite A. cbn [bind]. rewrite T. cbn [bind].
    rewrite (proj2 (String.eqb_neq _ _) D), R. reflexivity.
Qed.
Lemma other_none V L C q : other_body V L C q = None <-> to_issue q.
Proof.
  unfold other_body, to_issue. destruct (String.eqb_spec (h_body q) "certConf") as [E|E]; [split; [discriminate | intros (H & _); contradiction]|].
  destruct (String.eqb_spec (h_body q) "rr") as [E'|E']; [split; [discriminate | intros (_ & H); contradiction]|]. split; auto.
Qed.

(** An answer to a request for a certificate. *)
Lemma process_issued V L C w q r bad w' o : to_issue q -> process V L C w q r bad = (w', Ok (Answer o)) ->
  passes V L q /\ exists n c4 c1 o0 k g,
  chosen (w_pub w) r n /\ made L q n (key_url L C n) (sig_url L C n) bad o0 c4 c1 /\
  l_alt_key L c1 = Ok (Some k) /\ l_alt_sig L c1 = Ok g /\ publishes (w_pub w) (w_pub w') n c1 k g /\
  ((h_implicit q = true /\ o_enc o0 = false /\ w_certs w' = (c4, true) :: w_certs w /\ w_wait w' = w_wait w /\
    sign L C q (confirmed o0) false (Some c1) = Ok o) \/
   ((h_implicit q = false \/ o_enc o0 = true) /\ w_certs w' = (c4, false) :: w_certs w /\ w_wait w' = c4 :: w_wait w /\
    sign L C q o0 false (if o_enc o0 then None else Some c1) = Ok o)).
Proof.
  intros T H. apply (other_none V L C) in T. unfold process in H. destruct (admit_request V L q) as [[e|]|e] eqn:A; [discriminate | | discriminate].
  apply admit_iff in A. split; [exact A|]. rewrite T in H. destruct (serial_number (w_pub w) r) as [n|e] eqn:N; [|discriminate]. apply serial_iff in N.
  cbn [bind] in H. destruct (c_composite C); [|discriminate]. cbn [guard bind] in H. cbv zeta in H.
  destruct (request_step L C (w_pub w) q n bad) as [(_ & e & E) | (o0 & c4 & c1 & k & g & I0 & M & K & G & P & E)].
  - rewrite E in H. destruct (CAModel.is_cmp e); discriminate.
  - exists n, c4, c1, o0, k, g. split; [exact N|]. split; [exact M|]. split; [exact K|]. split; [exact G|].
    rewrite E in H. destruct (o_enc o0) eqn:Eo.
    + destruct (sign L C q o0 false None) as [x|e]; cbn [bind] in H; [|destruct (CAModel.is_cmp e); discriminate].
      injection H as <- <-. split; [exact P|]. right. cbn. auto 6.
    + destruct (h_implicit q) eqn:Q.
      * destruct (sign L C q (confirmed o0) false (Some c1)) as [x|e]; cbn [bind] in H; [|destruct (CAModel.is_cmp e); discriminate].
        injection H as <- <-. split; [exact P|]. left. cbn. auto 6.
      * destruct (sign L C q o0 false (Some c1)) as [x|e]; cbn [bind] in H; [|destruct (CAModel.is_cmp e); discriminate].
        injection H as <- <-. split; [exact P|]. right. cbn. auto 6.
Qed.
(** Otherwise no certificate is recorded. *)
Lemma process_failed V L C w q r bad : (forall o, snd (process V L C w q r bad) <> Ok (Answer o)) \/ ~ to_issue q ->
  let w' := fst (process V L C w q r bad) in w_certs w' = w_certs w /\ w_wait w' = w_wait w.
Proof.
  intros H. cbv zeta. unfold process in *. destruct (admit_request V L q) as [[e|]|e]; [auto | | auto].
  destruct (other_body V L C q) as [x|] eqn:T; [auto|]. apply other_none in T. destruct H as [H|H]; [|contradiction].
  destruct (serial_number (w_pub w) r) as [n|e]; [|auto]. cbn [bind] in *. destruct (c_composite C); [|auto]. cbn [guard bind] in *. cbv zeta in *.
  destruct (snd (process_request L C (w_pub w) q n bad)) as [((o & i) & u)|e]; [|auto].
  destruct i as [i|], u as [u|]; cbn [fst snd] in *; auto; exfalso; eapply H; reflexivity.
Qed.
Lemma process_revoked V L C w q r bad : h_alg q <> None -> not_by_mac L q -> (exists c k, signer q c /\ kind V c k) ->
  revoked_for_issuing V q false = Err ECertRevoked -> process V L C w q r bad = (w, Ok (Failure ECertRevoked)).
Proof. intros A M S1 R. unfold process. rewrite (proj2 (admit_revoked V L q ECertRevoked)); [reflexivity | auto 6]. Qed.
Lemma process_unprotected V L C w q r bad : h_alg q = None -> exists e, process V L C w q r bad = (w, Err e).
Proof.
  intros A. unfold process, admit_request. destruct (first q) as [c|e]; [|cbn [bind]; eauto]. cbn [bind].
  destruct (MigModel.is_hybrid (v_looks V c)) as [k|e]; [|cbn [bind]; eauto]. cbn [bind]. rewrite A. cbn [bind]. eauto.
Qed.
Lemma process_names V L C w q r bad c k : h_alg q <> None -> not_by_mac L q -> signer q c -> kind V c (Some k) -> k = "related-cert" \/ k = "cert-discovery" ->
  process V L C w q r bad = (w, Err ENotImplemented).
Proof.
  intros A M S1 K H. pose proof (issuing_names V q false c k S1 K H) as R. unfold process, admit_request. apply first_iff in S1. rewrite S1. cbn [bind].
  unfold kind in K. rewrite K. cbn [bind]. destruct M as [N | (a & t & Q & T & D)]; [contradiction|]. rewrite Q. cbn [bind]. rewrite T. cbn [bind].
  rewrite (proj2 (String.eqb_neq _ _) D), R. reflexivity.
Qed.
Lemma process_kem V L C w q r bad : passes V L q -> c_composite C = true -> l_ids L q = Ok tt -> In (h_body q) ["cr"; "kur"; "crr"] ->
  l_key L q = Ok HybKem -> (forall n kl sl, exists x, l_cert L q n kl sl false = Ok x) -> process V L C w q r bad = (published w (w_pub w), Err EPyAsn1).
Proof.
  intros A Cc I0 B K X. apply admit_iff in A. unfold process. rewrite A.
  assert (T : to_issue q) by (split; intros E; rewrite E in B; cbn [In] in B; decompose [or] B; try discriminate; contradiction).
  apply (other_none V L C) in T. rewrite T. destruct (serial_ok (w_pub w) r) as (n & N & _). rewrite N. cbn [bind]. rewrite Cc. cbn [guard bind]. cbv zeta.
  unfold process_request. rewrite I0. cbn [bind].
  destruct (X n (c_url C ++ "/pubkey/" ++ l_show L n)%string (c_url C ++ "/sig/" ++ l_show L n)%string) as (x & Hx).
  rewrite (build_kem L q n _ _ bad x B K Hx). reflexivity.
Qed.
(** What is published stays when the protection fails. *)
Lemma process_leaves V L C w q r bad n o c4 c1 k g : passes V L q -> to_issue q -> c_composite C = true -> chosen (w_pub w) r n -> l_ids L q = Ok tt ->
  made L q n (key_url L C n) (sig_url L C n) bad o c4 c1 -> l_alt_key L c1 = Ok (Some k) -> l_alt_sig L c1 = Ok g ->
  publishes (w_pub w) (w_pub (fst (process V L C w q r bad))) n c1 k g.
Proof.
  intros A T Cc N I0 M K G. apply admit_iff in A. unfold process. rewrite A. apply (other_none V L C) in T. rewrite T. apply serial_iff in N. rewrite N. cbn [bind].
  rewrite Cc. cbn [guard bind]. cbv zeta. destruct (request_makes L C (w_pub w) q n bad o c4 c1 k g I0 M K G) as (P & _).
  destruct (snd (process_request L C (w_pub w) q n bad)) as [((o' & i) & u)|e]; [|exact P]. destruct i, u; exact P.
Qed.
Lemma request_both L f C s q n bad : process_request (with_both L f) C s q n bad = process_request L C s q n bad.
Proof.
  unfold process_request. cbn [with_both l_ids l_show].
  assert (B : forall kl sl, build (with_both L f) q n kl sl bad = build L q n kl sl bad) by reflexivity. rewrite B.
  assert (A : forall c, add_to_state (with_both L f) s n c = add_to_state L s n c) by reflexivity.
  destruct (l_ids L q); [|reflexivity]. cbn [bind]. destruct (build L q n _ _ bad) as [x|e]; [|reflexivity]. cbn [bind]. rewrite A.
  destruct (add_to_state L s n _); [|reflexivity]. cbn [bind]. destruct x as (o & c4 & c1). rewrite !sign_both. reflexivity.
Qed.
Lemma process_both V L f C w q r bad : process V (with_both L f) C w q r bad = process V L C w q r bad.
Proof.
  unfold process. assert (A : admit_request V (with_both L f) q = admit_request V L q) by reflexivity. rewrite A.
  destruct (admit_request V L q) as [[e|]|e]; [reflexivity | | reflexivity].
  assert (T : other_body V (with_both L f) C q = other_body V L C q).
  { unfold other_body. cbn [with_both l_conf l_rev_sig l_rr]. destruct (String.eqb (h_body q) "certConf").
    - destruct (l_conf L q); [|reflexivity]. cbn [bind]. now rewrite sign_both.
    - destruct (String.eqb (h_body q) "rr"); [|reflexivity]. destruct (l_rev_sig L q); [|reflexivity]. cbn [bind]. destruct (first q) as [c|]; [|reflexivity]. cbn [bind].
      destruct (v_form4 V c); [|reflexivity]. cbn [bind]. cbv zeta. destruct (l_rr L _); [|reflexivity]. cbn [bind]. now rewrite sign_both. }
  rewrite T. destruct (other_body V L C q); [reflexivity|]. destruct (let! n := serial_number (w_pub w) r in _) as [n|e]; [|reflexivity]. cbv zeta. rewrite request_both. reflexivity.
Qed.
(** The bodies certConf and rr. *)
Lemma process_conf V L C w q r bad : passes V L q -> h_body q = "certConf" ->
  process V L C w q r bad = (w, let! o := l_conf L q in let! x := sign L C q o false None in Ok (Answer x)).
Proof. intros A B. apply admit_iff in A. unfold process, other_body. rewrite A, B. reflexivity. Qed.
Lemma process_rev V L C w q r bad o : passes V L q -> h_body q = "rr" ->
  (snd (process V L C w q r bad) = Ok (Answer o) <->
   l_rev_sig L q = Ok tt /\ exists c f o0, signer q c /\ v_form4 V c = Ok f /\ l_rr L (in_form4 q f) = Ok o0 /\ sign L C (in_form4 q f) o0 false None = Ok o).
Proof.
  intros A B. apply admit_iff in A. unfold process, other_body. rewrite A, B. change (String.eqb "rr" "certConf") with false. change (String.eqb "rr" "rr") with true. cbv iota.
  cbn [snd]. rewrite <- B. split.
  - intros H. step H u U. step H c E. step H f F. cbv zeta in H. step H o0 R. step H x X. injection H as ->. destruct u. apply first_iff in E. eauto 10.
  - intros (U & c & f & o0 & S1 & F & R & X). rewrite U. cbn [bind]. apply first_iff in S1. rewrite S1. cbn [bind]. rewrite F. cbn [bind]. cbv zeta.
    unfold in_form4 in *. rewrite R. cbn [bind]. rewrite X. reflexivity.
Qed.
Lemma process_answers V L C w q r bad n o c4 c1 k g : passes V L q -> to_issue q -> c_composite C = true -> chosen (w_pub w) r n -> l_ids L q = Ok tt ->
  made L q n (key_url L C n) (sig_url L C n) bad o c4 c1 -> l_alt_key L c1 = Ok (Some k) -> l_alt_sig L c1 = Ok g ->
  snd (process V L C w q r bad) =
  match sign L C q (if h_implicit q && negb (o_enc o) then confirmed o else o) false (if o_enc o then None else Some c1) with
  | Ok x => Ok (Answer x)
  | Err e => if CAModel.is_cmp e then Ok (Failure e) else Err e
  end.
Proof.
  intros A T Cc N I0 M K G. apply admit_iff in A. unfold process. rewrite A. apply (other_none V L C) in T. rewrite T. apply serial_iff in N. rewrite N. cbn [bind].
  rewrite Cc. cbn [guard bind]. cbv zeta. destruct (request_makes L C (w_pub w) q n bad o c4 c1 k g I0 M K G) as (_ & E). rewrite E. clear E.
  destruct (o_enc o); [|destruct (h_implicit q)]; rewrite ?andb_false_r; cbn [negb andb].
  - destruct (sign L C q o false None); reflexivity.
  - destruct (sign L C q (confirmed o) false (Some c1)); reflexivity.
  - destruct (sign L C q o false (Some c1)); reflexivity.
Qed.
