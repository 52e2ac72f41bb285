(** Proofs about challenges. *)
From Coq Require Import String.
From Verif Require Import Prelude PreludeFacts PyStr ProtMac ChamProofs GenModel GenSpec GenProofs ChlModel ChlSpec.
Open Scope string_scope.
Open Scope Z_scope.
Open Scope list_scope.
Local Notation length := List.length.

Lemma has_env_iff c : has_env c = true <-> c_env c <> None.
Proof. unfold has_env. destruct (c_env c); split; congruence. Qed.
Lemma has_val_iff c : has_val c = false <-> c_val c = [].
Proof. unfold has_val. destruct (c_val c); split; congruence. Qed.

Lemma existsb_false A (f : A -> bool) l : existsb f l = false <-> forall x, In x l -> f x = false.
Proof.
  split.
  - intros H x I. destruct (f x) eqn:E; [|reflexivity]. assert (existsb f l = true) by (apply existsb_exists; eauto). congruence.
  - intros H. destruct (existsb f l) eqn:E; [|reflexivity]. apply existsb_exists in E. destruct E as (x & I & E). rewrite H in E; [discriminate | exact I].
Qed.

Lemma version_iff m u : check_version m = Ok u <-> versioned m.
Proof.
  unfold check_version, versioned. destruct (existsb has_env (m_chals m)) eqn:E.
  - apply existsb_exists in E. destruct E as (c & I & E). apply has_env_iff in E.
    destruct (Z.eqb_spec (m_pvno m) 3) as [P|P].
    + cbn [negb andb guard bind]. rewrite andb_false_r. cbn [negb guard bind]. rewrite guard_iff, negb_true_iff, existsb_false. split.
      * intros H. left. split; [exact P|]. split; [eauto|]. intros d D. now apply has_val_iff, H.
      * intros [(_ & _ & H) | (H & _)]; [|congruence]. intros d D. now apply has_val_iff, H.
    + cbn [negb andb guard bind]. split; [discriminate|]. intros [(H & _) | (_ & H)]; [contradiction|]. exfalso. apply E, H, I.
  - assert (N : forall c, In c (m_chals m) -> c_env c = None).
    { intros c I. destruct (c_env c) eqn:C; [|reflexivity]. rewrite existsb_false in E. specialize (E c I). unfold has_env in E. rewrite C in E. discriminate. }
    rewrite andb_false_r. cbn [negb guard bind]. destruct (Z.eqb_spec (m_pvno m) 2) as [P|P].
    + cbn [negb andb guard bind]. destruct u. split; [intros _; right; split; assumption | reflexivity].
    + cbn [negb andb guard bind]. split; [discriminate|]. intros [(_ & (c & I & C) & _) | (H & _)]; [|contradiction]. exfalso. apply C, N, I.
Qed.

Lemma rid_iff x n s : extract_rid x 0 = Ok (n, s) <-> named_by x n s.
Proof.
  unfold named_by. split.
  - destruct x as [r|[r|]| |l|]; cbn [extract_rid]; intros H; try discriminate.
    + destruct r; [|discriminate]. injection H as -> ->. now left.
    + destruct r; [|discriminate]. injection H as -> ->. right. now left.
    + destruct l as [|r l]; [discriminate|]. cbn [nth_error] in H. destruct r; [|discriminate]. injection H as -> ->. right. right. eauto.
  - intros [-> | [-> | (r & ->)]]; reflexivity.
Qed.
Lemma addressed_iff L v ri id u : validate_rid L v id ri 0 = Ok u <-> addressed L v ri id.
Proof.
  unfold validate_rid, addressed. destruct (nth_error (v_recips v) ri) as [x|].
  - split.
    + intros H. step H p P. step H g G. apply guard_iff in G. apply guard_iff in H. apply Z.eqb_eq in H. destruct p as [n s]. cbn [fst snd] in *. subst s.
      exists x, n. split; [reflexivity|]. split; [now apply rid_iff | exact G].
    + intros (y & n & E & N & U). injection E as <-. apply rid_iff in N. rewrite N. cbn [bind fst snd]. rewrite U, Z.eqb_refl. now destruct u.
  - split; [discriminate|]. intros (y & n & E & _). discriminate.
Qed.

Lemma partner_iff L m t s kc p : kari_key L (SDh t s) kc m = Ok (Some p) <-> partner L m t kc p.
Proof.
  unfold kari_key, partner. destruct kc as [c|].
  - split.
    + intros H. step H q Q. destruct q; try discriminate. injection H as <-. split; [exact Q | eauto].
    + intros (H & t' & k & ->). rewrite H. reflexivity.
  - destruct (m_extra m) as [|c r]; [split; [discriminate | intros (c & r & E & _); discriminate]|]. split.
    + intros H. step H q Q. exists c, r. split; [reflexivity|].
      destruct (match q with PDh t' _ => String.eqb t' t | _ => false end) eqn:Sm.
      * injection H as <-. left. destruct q; try discriminate. apply String.eqb_eq in Sm. subst. eauto.
      * destruct r as [|d r]; [discriminate|]. step H q' Q'. right.
        destruct (match q' with PDh t' _ => String.eqb t' t | _ => false end) eqn:Sm'; [|discriminate]. injection H as <-.
        destruct q'; try discriminate. apply String.eqb_eq in Sm'. subst. exists q, d, r, k. repeat split; try assumption.
        intros k' ->. now rewrite String.eqb_refl in Sm.
    + intros (c' & r' & E & H). injection E as <- <-. destruct H as [(k & H & ->) | (p' & d & r' & k & H & N & -> & H' & ->)]; rewrite H; cbn [bind].
      * now rewrite String.eqb_refl.
      * assert (Sm : match p' with PDh t' _ => String.eqb t' t | _ => false end = false).
        { destruct p'; try reflexivity. apply String.eqb_neq. intros ->. now apply (N k0). }
        rewrite Sm, H'. cbn [bind]. now rewrite String.eqb_refl.
Qed.
Lemma partner_some L m t s kc o : kari_key L (SDh t s) kc m = Ok o -> exists p, o = Some p.
Proof.
  unfold kari_key. destruct kc as [c|].
  - intros H. step H q Q. destruct q; try discriminate. injection H as <-. eauto.
  - destruct (m_extra m) as [|c r]; [discriminate|]. intros H. step H q Q.
    match type of H with (if ?b then _ else _) = _ => destruct b end; [injection H as <-; eauto|].
    destruct r as [|d r]; [discriminate|]. step H q' Q'.
    match type of H with (if ?b then _ else _) = _ => destruct b end; [injection H as <-; eauto | discriminate].
Qed.

Lemma read_iff L b r : bind (decode (l_rand L) (Some b)) (fun x => no_rest x EBadAsn1Data) = Ok r <-> reads (l_rand L) b r.
Proof.
  rewrite bind_iff. split.
  - intros (p & D & R). apply rest_iff in R. subst. apply dec_iff in D. destruct D as (b' & B & D). injection B as <-. exact D.
  - intros R. exists (r, []). split; [apply dec_iff; eauto | now apply rest_iff].
Qed.
Lemma tread_iff L b r : bind (try_decode (l_rand L) (Some b)) (fun x => no_rest x EBadAsn1Data) = Ok r <-> reads (l_rand L) b r.
Proof.
  rewrite bind_iff. split.
  - intros (p & D & R). apply rest_iff in R. subst. apply try_iff in D. destruct D as (b' & B & D). injection B as <-. exact D.
  - intros R. exists (r, []). split; [apply try_iff; eauto | now apply rest_iff].
Qed.

Lemma finds_iff L m k c iv ri id kc r :
  match c_env c with
  | Some v => process_env L v m k ri id kc
  | None => let! p := kari_key L k kc m in process_simple L c iv k p None
  end = Ok r <-> finds L m k c iv ri id kc r.
Proof.
  unfold finds. destruct (c_env c) as [v|].
  - unfold process_env. split.
    + intros H. step H g G. apply addressed_iff in G. step H b B. apply tread_iff in H. split; [exact G | eauto].
    + intros (A & b & B & R). assert (V : validate_rid L v id ri 0 = Ok tt) by (now apply addressed_iff). rewrite V. cbn [bind]. rewrite B. cbn [bind].
      now apply tread_iff.
  - destruct k as [s|t s|s|s].
    + cbn [kari_key bind process_simple]. split.
      * intros H. step H b B. apply read_iff in H. eauto.
      * intros (b & B & R). rewrite B. cbn [bind]. now apply read_iff.
    + split.
      * intros H. step H o HO. destruct (partner_some _ _ _ _ _ _ HO) as (p & ->). apply partner_iff in HO. cbn [process_simple] in H.
        step H ss SS. step H dk DK. step H b B. apply read_iff in H. exists p, ss, dk, b. auto.
      * intros (p & ss & dk & b & P & SS & DK & B & R). apply (partner_iff L m t s kc) in P. rewrite P. cbn [bind process_simple]. rewrite SS. cbn [bind]. rewrite DK. cbn [bind].
        rewrite B. cbn [bind]. now apply read_iff.
    + cbn [kari_key bind process_simple]. split.
      * intros H. step H ss SS. step H b B. apply read_iff in H. eauto.
      * intros (ss & b & SS & B & R). rewrite SS. cbn [bind]. rewrite B. cbn [bind]. now apply read_iff.
    + cbn [kari_key bind process_simple]. split; [discriminate | contradiction].
Qed.

Lemma client_iff L m k size i id ri sender iv ver kc a :
  process_popdecc L m k size i id ri sender iv ver kc = Ok a <->
  m_body m = "popdecc" /\ Z.of_nat (length (m_chals m)) = size /\ versioned m /\
  exists c r t s n, nth_error (m_chals m) i = Some c /\
    (ver = Some 3 -> c_env c <> None) /\ (ver = Some 2 -> c_env c = None) /\
    finds L m k c iv ri id kc r /\ (forall x, sender = Some x -> l_same L (r_sender r) x = Ok true) /\
    m_tx m = Some t /\ m_sn m = Some s /\ m_rn m = Some n /\ a = {| a_nums := [r_int r]; a_tx := t; a_rn := s; a_sn := n |}.
Proof.
  unfold process_popdecc. split.
  - intros H. step H g1 G1. step H g2 G2. apply guard_iff, String.eqb_eq in G1. apply guard_iff, Z.eqb_eq in G2.
    split; [exact G1|]. split; [exact G2|]. destruct (nth_error (m_chals m) i) as [c|] eqn:N; [|discriminate].
    step H g3 G3. apply version_iff in G3. split; [exact G3|]. step H g4 G4. step H g5 G5. apply guard_iff, negb_true_iff in G4. apply guard_iff, negb_true_iff in G5.
    step H r R. apply finds_iff in R. step H g6 G6. unfold answer_header in H.
    destruct (m_tx m) as [t|], (m_sn m) as [s|], (m_rn m) as [n|]; try discriminate. injection H as <-.
    exists c, r, t, s, n. repeat split; try assumption.
    + intros ->. cbn in G4. apply negb_false_iff, has_env_iff in G4. exact G4.
    + intros ->. cbn in G5. destruct (c_env c) eqn:C; [|reflexivity]. unfold has_env in G5. rewrite C in G5. discriminate.
    + intros x ->. step G6 b B. apply guard_iff in G6. now subst.
  - intros (B & Sz & V & c & r & t & s & n & N & V3 & V2 & Fi & Se & T & S1 & S2 & ->). rewrite B. cbn [String.eqb Ascii.eqb Bool.eqb guard bind].
    rewrite (proj2 (Z.eqb_eq _ _) Sz). cbn [guard bind]. rewrite N. assert (CV : check_version m = Ok tt) by (now apply version_iff). rewrite CV. cbn [bind].
    assert (G4 : guard (negb match ver with Some z => (z =? 3) && negb (has_env c) | None => false end) EBadRequest = Ok tt).
    { apply guard_iff, negb_true_iff. destruct ver as [z|]; [|reflexivity]. destruct (Z.eqb_spec z 3); [|reflexivity]. subst. cbn. apply negb_false_iff, has_env_iff. auto. }
    assert (G5 : guard (negb match ver with Some z => (z =? 2) && has_env c | None => false end) EBadRequest = Ok tt).
    { apply guard_iff, negb_true_iff. destruct ver as [z|]; [|reflexivity]. destruct (Z.eqb_spec z 2); [|reflexivity]. subst. cbn. unfold has_env. now rewrite V2. }
    rewrite G4. cbn [bind]. rewrite G5. cbn [bind]. rewrite (proj2 (finds_iff L m k c iv ri id kc r) Fi). cbn [bind].
    assert (G6 : match sender with None => Ok tt | Some s => bind (l_same L (r_sender r) s) (fun b => guard b EValueError) end = Ok tt).
    { destruct sender as [x|]; [|reflexivity]. rewrite (Se x eq_refl). reflexivity. }
    rewrite G6. cbn [bind]. unfold answer_header. rewrite T, S1, S2. reflexivity.
Qed.

Lemma rand_int_of L sender n c rnd r : prepare_rand L sender (Some n) c rnd = Ok r -> r_int r = n.
Proof.
  unfold prepare_rand. intros H. step H g G. step H s S'. destruct c; [injection H as <-; reflexivity|]. destruct s; [injection H as <-; reflexivity | discriminate].
Qed.
Lemma rand_sender_of L sender n c rnd r : prepare_rand L sender n c rnd = Ok r ->
  (forall x, c = Some x -> r_sender r = l_subject L x) /\
  (forall x, c = None -> sender = Some x -> l_name L x = Ok (r_sender r)).
Proof.
  unfold prepare_rand. intros H. step H g G. step H s S'. destruct c as [c|].
  - injection H as <-. split; [intros x E; injection E as <-; reflexivity | discriminate].
  - destruct s as [s|]; [|discriminate]. injection H as <-. split; [discriminate|]. intros x _ ->. step S' y Y. injection S' as <-. exact Y.
Qed.

Lemma simple_shape L k ca bad h sender n iv c rnd noise x ct :
  prepare_challenge L k ca bad h sender n iv c rnd noise = Ok (x, ct) ->
  c_env x = None /\ exists r, prepare_rand L sender n c rnd = Ok r /\ witness L h (r_int r) bad noise = Ok (c_owf x, c_wit x).
Proof.
  unfold prepare_challenge. intros H. step H r R. step H w W. destruct w as [o w].
  assert (D : x = {| c_owf := o; c_wit := w; c_val := c_val x; c_env := None |}).
  { destruct k as [p|t p|p|p].
    - step H e E. injection H as <- <-. reflexivity.
    - destruct ca as [[s|t' s|s|s]|]; try discriminate. step H ss SS. step H dk DK. step H e E. injection H as <- <-. reflexivity.
    - step H sc SC. step H e E. injection H as <- <-. reflexivity.
    - discriminate. }
  rewrite D. cbn [c_env c_owf c_wit]. split; [reflexivity|]. eauto.
Qed.

Lemma simple_opens L m k ca sk kc bad h sender n iv c rnd noise x ct :
  faithful (l_rand L) -> aes_ok L -> opens L m k ca sk kc ->
  prepare_challenge L k ca bad h sender n iv c rnd noise = Ok (x, ct) ->
  exists r, prepare_rand L sender n c rnd = Ok r /\ forall ri id, finds L m sk x iv ri id kc r.
Proof.
  intros Fa Ae Op H. destruct (simple_shape _ _ _ _ _ _ _ _ _ _ _ _ _ H) as (E & r & R & _). exists r. split; [exact R|]. intros ri id.
  unfold finds. rewrite E. clear E. unfold prepare_challenge in H. rewrite R in H. cbn [bind] in H. step H w W.
  destruct k as [p|t p|p|p], sk as [s|t' s|s|s]; cbn [opens] in Op; try contradiction.
  - step H e E. injection H as <- <-. cbn [c_val]. exists (enc (l_rand L) r). split; [now apply Op | apply Fa].
  - destruct Op as (q & P & D). destruct ca as [[a|t2 a|a|a]|]; try discriminate. step H ss SS. step H dk DK. step H e E. injection H as <- <-. cbn [c_val].
    exists q, ss, dk, (enc (l_rand L) r). split; [exact P|]. split; [exact (D _ _ eq_refl SS)|]. split; [exact DK|]. split; [exact (Ae _ _ _ _ E) | apply Fa].
Qed.

Lemma popdecc_cases L q ca n id size sender bad pv a h iv c small rnd noise v x ct z :
  build_popdecc L q ca n id size sender bad pv a h iv c small rnd noise = Ok (v, x, ct, z) ->
  exists k i rest, q_reqs q = (Ok k, i) :: rest /\ size = Z.of_nat (length (q_reqs q)) /\ v = or_z pv (q_pvno q) /\ z = or_z n small /\
  ((v = 3 /\ ct = None /\ prepare_enc_rand L k sender (Some z) h bad (or_z id i) ca a c rnd noise = Ok x) \/
   (v <> 3 /\ prepare_challenge L k ca bad h sender (Some z) iv None rnd noise = Ok (x, ct))).
Proof.
  unfold build_popdecc. intros H. step H g G. apply guard_iff, Z.eqb_eq in G.
  destruct (q_reqs q) as [|[[k|e] i] rest] eqn:Q; [discriminate | | discriminate]. cbn [bind] in H.
  exists k, i, rest. split; [reflexivity|]. split; [exact G|].
  destruct (Z.eqb_spec (or_z pv (q_pvno q)) 3) as [P|P].
  - step H y Y. injection H as <- <- <- <-. repeat split. left. auto.
  - step H y Y. injection H as <- <- <- <-. repeat split. right. split; [exact P|]. now destruct y.
Qed.

(** The challenge in version 2. *)
Lemma round2 L q ca n id size sender bad pv a h iv c small rnd noise v x ct z m t s r k i rest sk kc :
  faithful (l_rand L) -> aes_ok L ->
  build_popdecc L q ca n id size sender bad pv a h iv c small rnd noise = Ok (v, x, ct, z) ->
  v = 2 -> carries m 2 x t s r -> q_reqs q = (Ok k, i) :: rest -> opens L m k ca sk kc ->
  forall ri id', process_popdecc L m sk 1 0 id' ri None iv (Some 2) kc = Ok {| a_nums := [z]; a_tx := t; a_rn := s; a_sn := r |}.
Proof.
  intros Fa Ae B V (C1 & C2 & C3 & C4 & C5 & C6) Q Op ri id'. apply popdecc_cases in B.
  destruct B as (k' & i' & rest' & Q' & _ & _ & _ & [(V' & _) | (_ & B)]); [congruence|].
  assert (k' = k) by congruence. subst k'.
  destruct (simple_shape _ _ _ _ _ _ _ _ _ _ _ _ _ B) as (E & _).
  destruct (simple_opens _ _ _ _ _ kc _ _ _ _ _ _ _ _ _ _ Fa Ae Op B) as (rr & R & Fi). apply rand_int_of in R.
  apply client_iff. split; [exact C1|]. split; [now rewrite C3|]. split.
  - right. split; [exact C2|]. intros d D. rewrite C3 in D. destruct D as [<- | []]. exact E.
  - exists x, rr, t, s, r. rewrite C3, R. split; [reflexivity|]. split; [discriminate|]. split; [now intros _|]. split; [apply Fi|]. split; [discriminate|]. auto.
Qed.

(** The challenge in version 3. *)
Lemma round3 L q ca n id size sender bad pv a h iv c small rnd noise v x ct z m t s r k i rest sk kc :
  faithful (l_rand L) ->
  build_popdecc L q ca n id size sender bad pv a h iv c small rnd noise = Ok (v, x, ct, z) ->
  v = 3 -> challenge_bytes a = Ok [] -> carries m 3 x t s r -> q_reqs q = (Ok k, i) :: rest -> unseals L m k ca sk kc ->
  forall iv', process_popdecc L m sk 1 0 (or_z id i) 0 None iv' (Some 3) kc = Ok {| a_nums := [z]; a_tx := t; a_rn := s; a_sn := r |}.
Proof.
  intros Fa B V A (C1 & C2 & C3 & C4 & C5 & C6) Q Un iv'. apply popdecc_cases in B.
  destruct B as (k' & i' & rest' & Q' & _ & _ & _ & [(_ & _ & B) | (V' & _)]); [|congruence].
  assert (k' = k) by congruence. assert (i' = i) by congruence. subst k' i'.
  unfold prepare_enc_rand in B. step B rr R. step B e E. step B w W. step B b Bb. injection B as <-.
  assert (b = []) by congruence. subst b. apply rand_int_of in R. destruct (Un _ _ _ E) as (U1 & U2).
  apply client_iff. split; [exact C1|]. split; [now rewrite C3|]. split.
  - left. split; [exact C2|]. rewrite C3. split.
    + eexists. split; [left; reflexivity|]. discriminate.
    + intros d [<- | []]. reflexivity.
  - eexists _, rr, t, s, r. rewrite C3, R. split; [reflexivity|]. split; [discriminate|]. split; [discriminate|].
    split; [split; [exact U1|]; eexists; split; [exact U2 | apply Fa]|]. split; [discriminate|]. auto.
Qed.

(** ** Witness *)

Lemma be4_iff n b : be4 n = Ok b <-> four b n.
Proof.
  unfold be4, four. split.
  - intros H. step H g G. apply guard_iff, andb_true_iff in G. destruct G as (G1 & G2). apply Z.leb_le in G1. apply Z.ltb_lt in G2. injection H as <-.
    split; [reflexivity|]. assert (0 <= n / (256 * 256 * 256) < 256) by (split; [apply Z.div_pos; lia | apply Z.div_lt_upper_bound; lia]).
    split.
    + pose proof (Z.mod_pos_bound (n / (256 * 256)) 256 ltac:(lia)). pose proof (Z.mod_pos_bound (n / 256) 256 ltac:(lia)).
      pose proof (Z.mod_pos_bound n 256 ltac:(lia)).
      unfold is_bytes. cbn [forallb]. unfold is_byte. rewrite !andb_true_iff, !Z.leb_le, !Z.ltb_lt.
      repeat match goal with H : _ <= _ < _ |- _ => destruct H end. repeat split; assumption.
    + unfold value. cbn [fold_left].
      assert (D1 : n = 256 * (n / 256) + n mod 256) by (apply Z.div_mod; lia).
      assert (D2 : n / 256 = 256 * (n / 65536) + (n / 256) mod 256) by (change 65536 with (256 * 256); rewrite <- (Z.div_div n 256 256) by lia; apply Z.div_mod; lia).
      assert (D3 : n / 65536 = 256 * (n / 16777216) + (n / 65536) mod 256) by (change 16777216 with (65536 * 256); rewrite <- (Z.div_div n 65536 256) by lia; apply Z.div_mod; lia).
      revert D1 D2 D3. generalize (n mod 256) ((n / 256) mod 256) ((n / 65536) mod 256) (n / 16777216) (n / 65536) (n / 256). intros. lia.
  - intros (Le & By & V). destruct b as [|x0 [|x1 [|x2 [|x3 [|]]]]]; try discriminate. unfold is_bytes in By. cbn [forallb] in By. unfold is_byte in By.
    rewrite !andb_true_iff, !Z.leb_le, !Z.ltb_lt in By. unfold value in V. cbn [fold_left] in V.
    assert (G : (0 <=? n) && (n <? 256 * 256 * 256 * 256) = true) by (rewrite andb_true_iff, Z.leb_le, Z.ltb_lt; lia). rewrite G. cbn [guard bind].
    assert (E3 : n mod 256 = x3) by (symmetry; apply (Z.mod_unique n 256 (256 * (256 * x0 + x1) + x2) x3); lia).
    assert (D1 : n / 256 = 256 * (256 * x0 + x1) + x2) by (symmetry; apply (Z.div_unique n 256 _ x3); lia).
    assert (D2 : n / (256 * 256) = 256 * x0 + x1) by (symmetry; apply (Z.div_unique n (256 * 256) _ (256 * x2 + x3)); lia).
    assert (D3 : n / (256 * 256 * 256) = x0) by (symmetry; apply (Z.div_unique n (256 * 256 * 256) _ (256 * (256 * x1 + x2) + x3)); lia).
    assert (E2 : (n / 256) mod 256 = x2) by (rewrite D1; symmetry; apply (Z.mod_unique _ 256 (256 * x0 + x1) x2); lia).
    assert (E1 : (n / (256 * 256)) mod 256 = x1) by (rewrite D2; symmetry; apply (Z.mod_unique _ 256 x0 x1); lia).
    rewrite E3, E2, E1, D3. reflexivity.
Qed.

Lemma spoil_neq b c : spoil b = Ok c -> c <> b /\ tl c = tl b.
Proof.
  destruct b as [|x r]; [discriminate|]. cbn [spoil]. intros H. injection H as <-. split; [|reflexivity]. intros E. injection E as E.
  destruct (Z.eqb_spec x 0); lia.
Qed.

Lemma witness_ok L h n bad noise o w :
  witness L h n bad noise = Ok (o, w) ->
  (h = None \/ h = Some "" -> o = None /\ w = if bad then noise else []) /\
  (forall a, h = Some a -> a <> "" ->
     exists b d, four b n /\ l_hash L a b = Ok d /\ (bad = false -> w = d) /\ (bad = true -> w <> d /\ tl w = tl d) /\
                 exists i, l_sha L a = Ok i /\ o = Some i).
Proof.
  unfold witness. intros H. split.
  - intros [-> | ->]; cbn in H; injection H as <- <-; auto.
  - intros a -> N. destruct (String.eqb_spec a "") as [E|_]; [contradiction|]. step H i Hi. step H b B. step H d D. apply be4_iff in B.
    exists b, d. split; [exact B|]. split; [exact D|]. destruct bad.
    + step H w' W'. injection H as <- <-. split; [discriminate|]. split; [intros _; exact (spoil_neq _ _ W')|]. eauto.
    + injection H as <- <-. split; [reflexivity|]. split; [discriminate|]. eauto.
Qed.

(** ** The Mock CA *)

Lemma filter_out s n t : forall o, In o (filter (fun o => negb ((fst o =? n) && bytes_eqb (snd o) t)) s) <-> In o s /\ o <> (n, t).
Proof.
  intros [a b]. rewrite filter_In. cbn [fst snd]. rewrite negb_true_iff, andb_false_iff. split.
  - intros (I & H). split; [exact I|]. intros E. injection E as -> ->. rewrite Z.eqb_refl in H. destruct H as [H|H]; [discriminate|].
    assert (Q : bytes_eqb t t = true) by now apply bytes_eqb_iff. congruence.
  - intros (I & H). split; [exact I|]. destruct (Z.eqb_spec a n) as [->|]; [right | now left].
    destruct (bytes_eqb b t) eqn:Q; [|reflexivity]. apply bytes_eqb_iff in Q. subst. contradiction.
Qed.

Lemma mock_state L F s p q num small rnd noise s' v x ct z :
  mock_challenge L F s p q num small rnd noise = Ok (s', (v, x, ct, z)) ->
  exists t, q_tx q = Some t /\ (forall o, In o s' <-> In o s \/ o = (z, t)) /\ v = q_pvno q /\ length (q_reqs q) = 1%nat /\
    (v = 3 -> q_mac q = false) /\ (num <> 0 -> z = num) /\ (num = 0 -> z = small).
Proof.
  unfold mock_challenge. intros H. step H g G. destruct (q_reqs q) as [|[[k|e] i] rest] eqn:Q; [discriminate | | discriminate]. cbn [bind] in H.
  step H ca CA. step H r B. destruct (q_tx q) as [t|]; [|discriminate]. injection H as <- E. subst r. cbn [snd].
  apply popdecc_cases in B. destruct B as (_ & _ & _ & _ & Sz & V & Zn & _). exists t. split; [reflexivity|]. split.
  - intros o. rewrite in_app_iff, filter_out. cbn [In fst]. split; [intuition|].
    intros [I | ->]; [|auto]. destruct o as [a b]. destruct (Z.eq_dec a z) as [->|].
    + destruct (bytes_eqb b t) eqn:Qb; [apply bytes_eqb_iff in Qb; subst; auto|]. left. split; [exact I|]. intros E. injection E as ->.
      assert (Q' : bytes_eqb t t = true) by now apply bytes_eqb_iff. congruence.
    + left. split; [exact I|]. congruence.
  - split; [exact V|]. split; [rewrite Q in Sz; lia|]. split.
    + intros Ve. apply guard_iff, negb_true_iff in G. cbn [or_z] in V. rewrite <- V, Ve in G. exact G.
    + cbn [or_z] in Zn. destruct (Z.eqb_spec num 0); split; intros; congruence.
Qed.

Lemma mock_blocked L F s p q num small rnd noise r :
  s <> [] -> q_pvno q = 3 -> mock_challenge L F s p q num small rnd noise <> Ok r.
Proof.
  intros N V H. unfold mock_challenge in H. step H g G. destruct (q_reqs q) as [|[[k|e] i] rest] eqn:Q; [discriminate | | discriminate]. cbn [bind] in H.
  step H ca CA. step H b B. destruct b as [[[v x] ct] z]. apply popdecc_cases in B.
  destruct B as (k' & i' & rest' & _ & _ & Ve & _ & [(_ & _ & B) | (Ne & _)]); [|apply Ne; rewrite Ve; exact V].
  unfold prepare_enc_rand in B. step B rr R. step B e E. step B w W. step B d D. cbn [challenge_bytes] in D. destruct s; [contradiction|]. discriminate.
Qed.

(** ** Out-of-band hash *)

Lemma oob_iff L c x :
  validate_oob L c x = Ok tt <->
  (exists n, o_name L (h_alg x) = Ok (Some n) /\ o_hash L n (o_enc L x) = Ok (h_val x)) /\
  h_issuer x = o_issuer c /\ h_serial x = o_serial c /\ o_signer L c = Ok true /\
  (o_null L (o_subject c) = true -> alt_names_equal c) /\ o_lint L c = Ok tt.
Proof.
  unfold validate_oob. split.
  - intros H. step H n Nm. destruct n as [n|]; [|discriminate]. step H s HS. step H g1 G1. step H g2 G2. step H g3 G3. step H b B. step H g4 G4. step H g5 G5.
    apply guard_iff, bytes_eqb_iff in G1. apply guard_iff, bytes_eqb_iff in G2. apply guard_iff, Z.eqb_eq in G3. apply guard_iff in G4. subst b s.
    split; [eauto|]. split; [auto|]. split; [auto|]. split; [exact B|]. split; [|exact H]. intros Nu. rewrite Nu in G5.
    destruct (o_ian c) as [[i1 i2]|] eqn:I; [|discriminate]. destruct (o_san c) as [[a1 a2]|] eqn:A; [|discriminate]. step G5 g6 G6.
    apply guard_iff, eqb_prop in G6. apply guard_iff, bytes_eqb_iff in G5. cbn [fst snd] in *. subst. eexists. eauto.
  - intros ((n & N & HS) & Is & Se & B & Nu & Li). rewrite N. cbn [bind]. rewrite HS. cbn [bind].
    assert (E : forall y, bytes_eqb y y = true) by (intros y; now apply bytes_eqb_iff). rewrite E. cbn [guard bind]. rewrite Is, E. cbn [guard bind].
    rewrite Se, Z.eqb_refl. cbn [guard bind]. rewrite B. cbn [guard bind]. destruct (o_null L (o_subject c)).
    + destruct (Nu eq_refl) as (y & A & I). rewrite A, I, Bool.eqb_reflx. cbn [guard bind]. rewrite E. exact Li.
    + exact Li.
Qed.

(** ** More about what is in a challenge *)

Lemma finds_fun L m k c iv ri id kc r r' : finds L m k c iv ri id kc r -> finds L m k c iv ri id kc r' -> r = r'.
Proof. intros A B. apply finds_iff in A. apply finds_iff in B. rewrite A in B. now injection B. Qed.

Lemma content2 L q ca n id size sender bad pv a h iv c small rnd noise v x ct z m k i rest sk kc :
  faithful (l_rand L) -> aes_ok L ->
  build_popdecc L q ca n id size sender bad pv a h iv c small rnd noise = Ok (v, x, ct, z) ->
  v <> 3 -> q_reqs q = (Ok k, i) :: rest -> opens L m k ca sk kc ->
  forall ri id' r, finds L m sk x iv ri id' kc r ->
  r_int r = z /\ exists y, sender = Some y /\ l_name L y = Ok (r_sender r).
Proof.
  intros Fa Ae B V Q Op ri id' r Fi. apply popdecc_cases in B.
  destruct B as (k' & i' & rest' & Q' & _ & _ & _ & [(V' & _) | (_ & B)]); [congruence|]. assert (k' = k) by congruence. subst k'.
  destruct (simple_opens _ _ _ _ _ kc _ _ _ _ _ _ _ _ _ _ Fa Ae Op B) as (rr & R & Fi').
  assert (rr = r) by (eapply finds_fun; [apply Fi' | exact Fi]). subst rr. split; [eapply rand_int_of; exact R|].
  pose proof (rand_sender_of _ _ _ _ _ _ R) as (_ & Se). destruct sender as [y|].
  - exists y. split; [reflexivity|]. now apply Se.
  - discriminate.
Qed.

Lemma content3 L q ca n id size sender bad pv a h iv c small rnd noise v x ct z m k i rest sk kc :
  faithful (l_rand L) ->
  build_popdecc L q ca n id size sender bad pv a h iv c small rnd noise = Ok (v, x, ct, z) ->
  v = 3 -> q_reqs q = (Ok k, i) :: rest -> unseals L m k ca sk kc ->
  forall iv' r, finds L m sk x iv' 0 (or_z id i) kc r ->
  r_int r = z /\ (forall y, c = Some y -> r_sender r = l_subject L y) /\ (forall y, c = None -> sender = Some y -> l_name L y = Ok (r_sender r)).
Proof.
  intros Fa B V Q Un iv' r Fi. apply popdecc_cases in B.
  destruct B as (k' & i' & rest' & Q' & _ & _ & _ & [(_ & _ & B) | (V' & _)]); [|congruence].
  assert (k' = k) by congruence. assert (i' = i) by congruence. subst k' i'.
  unfold prepare_enc_rand in B. step B rr R. step B e E. step B w W. step B b Bb. injection B as <-.
  destruct (Un _ _ _ E) as (U1 & U2). unfold finds in Fi. cbn [c_env] in Fi. destruct Fi as (_ & d & D & Rd).
  assert (d = enc (l_rand L) rr) by congruence. subst d. pose proof (Fa rr) as Rr. unfold reads in *. rewrite Rr in Rd. injection Rd as <-.
  split; [eapply rand_int_of; exact R|]. exact (rand_sender_of _ _ _ _ _ _ R).
Qed.

Lemma built_witness L q ca n id size sender bad pv ar a iv c small rnd noise v x ct z :
  build_popdecc L q ca n id size sender bad pv ar (Some a) iv c small rnd noise = Ok (v, x, ct, z) -> a <> "" ->
  exists b d, four b z /\ l_hash L a b = Ok d /\ (bad = false -> c_wit x = d) /\ (bad = true -> c_wit x <> d /\ tl (c_wit x) = tl d) /\
              exists i, l_sha L a = Ok i /\ c_owf x = Some i.
Proof.
  intros B N. apply popdecc_cases in B. destruct B as (k & i & rest & _ & _ & _ & _ & [(_ & _ & B) | (_ & B)]).
  - unfold prepare_enc_rand in B. step B rr R. step B e E. step B w W. step B b Bb. injection B as <-. cbn [c_wit c_owf]. apply rand_int_of in R. rewrite R in W.
    destruct w as [o w]. apply witness_ok in W. exact (proj2 W a eq_refl N).
  - apply simple_shape in B. destruct B as (_ & r & R & W). apply rand_int_of in R. rewrite R in W. apply witness_ok in W. exact (proj2 W a eq_refl N).
Qed.
Lemma built_nowitness L q ca n id size sender bad pv ar iv c small rnd noise v x ct z h :
  build_popdecc L q ca n id size sender bad pv ar h iv c small rnd noise = Ok (v, x, ct, z) -> h = None \/ h = Some "" ->
  c_owf x = None /\ c_wit x = if bad then noise else [].
Proof.
  intros B N. apply popdecc_cases in B. destruct B as (k & i & rest & _ & _ & _ & _ & [(_ & _ & B) | (_ & B)]).
  - unfold prepare_enc_rand in B. step B rr R. step B e E. step B w W. step B b Bb. injection B as <-. cbn [c_wit c_owf].
    destruct w as [o w]. apply witness_ok in W. exact (proj1 W N).
  - apply simple_shape in B. destruct B as (_ & r & R & W). apply witness_ok in W. exact (proj1 W N).
Qed.

(** The end entity's outcome does not depend on the witness or its algorithm. *)
Lemma ignored L m k i id ri sender iv ver kc c o w :
  (forall m v, l_open L m v k kc = l_open L (with_chals m []) v k kc) ->
  process_popdecc L (with_chals m [reward o w c]) k 1 i id ri sender iv ver kc = process_popdecc L (with_chals m [c]) k 1 i id ri sender iv ver kc.
Proof.
  intros H. unfold process_popdecc. cbn [with_chals m_body m_chals length]. destruct i as [|i]; [|now destruct i]. cbn [nth_error reward c_env].
  unfold process_env, check_version, answer_header, has_env, has_val. cbn [with_chals m_body m_pvno m_chals m_tx m_sn m_rn existsb reward c_env c_val].
  destruct (c_env c) as [v|]; [|reflexivity].
  rewrite (H (with_chals m [reward o w c])), (H (with_chals m [c])). reflexivity.
Qed.

Lemma uses_iff F p k ca : ca_key F p k = Ok ca <-> uses F p k ca.
Proof.
  unfold ca_key, uses, own. destruct (String.eqb_spec p "keyEncipherment") as [->|P1].
  - split.
    + intros H. left. destruct k; try discriminate; injection H as <-; eauto 6.
    + intros [(_ & -> & [(r & ->) | (r & ->)]) | [(H & _) | (H & _)]]; try reflexivity; [discriminate | contradiction].
  - destruct (String.eqb_spec p "keyAgreement") as [->|P2].
    + split.
      * intros H. right. left. split; [reflexivity|]. destruct k as [|t r| |]; try discriminate. injection H as <-. exists t, r. split; [reflexivity|].
        destruct (String.eqb_spec t "X448"); [auto|]. destruct (String.eqb_spec t "X25519"); auto.
      * intros [(H & _) | [(_ & t & r & -> & H) | (_ & H & _)]]; [discriminate | | contradiction].
        destruct H as [(-> & ->) | [(-> & ->) | (N1 & N2 & ->)]]; [reflexivity | reflexivity|].
        rewrite (proj2 (String.eqb_neq _ _) N1), (proj2 (String.eqb_neq _ _) N2). reflexivity.
    + split.
      * intros H. injection H as <-. auto.
      * intros [(H & _) | [(H & _) | (_ & _ & ->)]]; [contradiction | contradiction | reflexivity].
Qed.

Lemma mock_built L F s p q num small rnd noise s' v x ct z k i rest :
  mock_challenge L F s p q num small rnd noise = Ok (s', (v, x, ct, z)) -> q_reqs q = (Ok k, i) :: rest ->
  exists ca, uses F p k ca /\
    build_popdecc L q ca (Some num) None 1 (Some "CN=CMP-Test-Suite") false None (CDict (length s)) None (repeat 65 16) (Some (f_cert F)) small rnd noise
      = Ok (v, x, ct, z).
Proof.
  unfold mock_challenge. intros H Q. rewrite Q in H. step H g G. cbn [bind] in H. step H ca CA. step H r B. destruct (q_tx q); [|discriminate].
  injection H as <- ->. exists ca. split; [now apply uses_iff | exact B].
Qed.

Lemma mock_answer L F s p q num small rnd noise s' v x ct z k i rest m t sn rn sk kc :
  faithful (l_rand L) -> aes_ok L ->
  mock_challenge L F s p q num small rnd noise = Ok (s', (v, x, ct, z)) -> q_reqs q = (Ok k, i) :: rest ->
  carries m v x t sn rn -> q_tx q = Some t ->
  (forall ca, uses F p k ca -> (v = 2 /\ opens L m k ca sk kc) \/ (v = 3 /\ unseals L m k ca sk kc)) ->
  exists a, process_popdecc L m sk 1 0 i 0 None (repeat 65 16) (Some v) kc = Ok a /\ a_nums a = [z] /\ a_tx a = t /\ In (z, t) s'.
Proof.
  intros Fa Ae M Q Ca T K. destruct (mock_state _ _ _ _ _ _ _ _ _ _ _ _ _ _ M) as (t' & T' & St & _). assert (t' = t) by congruence. subst t'.
  assert (I : In (z, t) s') by (apply St; now right).
  pose proof M as M'. destruct (mock_built _ _ _ _ _ _ _ _ _ _ _ _ _ _ _ _ _ M Q) as (ca & U & B). destruct (K ca U) as [(-> & Op) | (-> & Un)].
  - eexists. split; [exact (round2 _ _ _ _ _ _ _ _ _ _ _ _ _ _ _ _ _ _ _ _ _ _ _ _ _ _ _ _ _ Fa Ae B eq_refl Ca Q Op 0%nat i)|]. auto.
  - assert (E : challenge_bytes (CDict (length s)) = Ok []).
    { destruct s; [reflexivity|]. exfalso. refine (mock_blocked _ _ _ _ _ _ _ _ _ _ _ _ M'); [discriminate|].
      destruct (mock_state _ _ _ _ _ _ _ _ _ _ _ _ _ _ M') as (_ & _ & _ & V & _). now symmetry. }
    eexists. split; [exact (round3 _ _ _ _ _ _ _ _ _ _ _ _ _ _ _ _ _ _ _ _ _ _ _ _ _ _ _ _ _ Fa B eq_refl E Ca Q Un (repeat 65 16))|]. auto.
Qed.

(** A KEM key in version 2. *)
Lemma kem_unanswered L m s c size i id ri sender iv ver kc a :
  nth_error (m_chals m) i = Some c -> c_env c = None -> (forall x, l_decaps L s None <> Ok x) ->
  process_popdecc L m (SKem s) size i id ri sender iv ver kc <> Ok a.
Proof.
  intros N E D H. apply client_iff in H. destruct H as (_ & _ & _ & c' & r & t & sn & rn & N' & _ & _ & Fi & _).
  assert (c' = c) by congruence. subst c'. unfold finds in Fi. rewrite E in Fi. destruct Fi as (ss & b & S1 & _). exact (D _ S1).
Qed.

Lemma oob_prepared L c h x :
  prepare_oob L c h = Ok x -> o_name L (h_alg x) = Ok (Some h) ->
  (forall a b d, o_hash L h a = Ok d -> o_hash L h b = Ok d -> a = b) -> o_enc L x <> o_der c ->
  validate_oob L c x <> Ok tt.
Proof.
  intros P Nm Cf Ne V. apply oob_iff in V. destruct V as ((n & N1 & HS) & _). rewrite Nm in N1. injection N1 as <-.
  unfold prepare_oob in P. step P s S1. step P o O1. injection P as <-. cbn [h_val] in HS. exact (Ne (Cf _ _ _ HS S1)).
Qed.
Lemma oob_prepare_iff L c h x :
  prepare_oob L c h = Ok x <-> o_hash L h (o_der c) = Ok (h_val x) /\ o_oid L h = Ok (h_alg x) /\ h_issuer x = o_issuer c /\ h_serial x = o_serial c.
Proof.
  unfold prepare_oob. split.
  - intros P. step P s S1. step P o O1. injection P as <-. cbn [h_val h_alg h_issuer h_serial]. auto.
  - intros (A & B & C & D). rewrite A. cbn [bind]. rewrite B. cbn [bind]. rewrite <- C, <- D. now destruct x.
Qed.
