From Coq Require Import String Permutation.
From Verif Require Import Prelude HdrModel ProtMac ProtSig ChamModel ChamSpec ChamProofs ChamReq.
Open Scope string_scope.
Open Scope Z_scope.
Open Scope list_scope.

(** ** Pieces *)

Lemma guard_ok b e u : guard b e = Ok u -> b = true.
Proof. destruct b; [reflexivity | discriminate]. Qed.

Theorem keys_exact b d : validate_keys b d = Ok tt <->
  p_verify b = true /\ p_verify d = true /\ p_id d <> p_id b /\ size_allowed d /\ size_allowed b.
Proof.
  unfold validate_keys, size_allowed. assert (R : forall p, rsa_size_ok p = true <-> forall n, p_rsa p = Some n -> 2048 <= n <= 8192).
  { intro p. unfold rsa_size_ok. destruct (p_rsa p) as [n|]; [|split; [intros _ n H; discriminate H | reflexivity]].
    rewrite negb_true_iff, orb_false_iff, !Z.ltb_ge. split; [intros [A B] m M; injection M as <-; lia | intro H; specialize (H n eq_refl); lia]. }
  split.
  - intro H. apply bind_inv in H as (u1 & H1 & H). apply bind_inv in H as (u2 & H2 & H). apply bind_inv in H as (u3 & H3 & H).
    apply bind_inv in H as (u4 & H4 & H). apply guard_ok in H1, H2, H3, H4, H. split; [exact H1|]. split; [exact H2|].
    split; [|split; now apply R]. intro Q. unfold pub_eqb in H3. apply bytes_eqb_iff in Q. rewrite Q in H3. discriminate H3.
  - intros (B & D & N & SD & SB). rewrite B, D. cbn [guard bind]. apply R in SD, SB. rewrite SD, SB.
    unfold pub_eqb. destruct (bytes_eqb (p_id d) (p_id b)) eqn:E; [apply bytes_eqb_iff in E; now elim N|]. reflexivity.
Qed.

Lemma contains_in o l : contains_id o l = true <-> In o (ids l).
Proof.
  unfold contains_id. rewrite existsb_exists. unfold ids. rewrite in_map_iff. split.
  - intros (e & E & Q). apply String.eqb_eq in Q. now exists e.
  - intros (e & Q & E). exists e. split; [exact E | now apply String.eqb_eq].
Qed.

Lemma in_ids_iff o l : in_ids o l = true <-> In o (ids l).
Proof.
  unfold in_ids. rewrite existsb_exists. split.
  - intros (x & X & Q). apply String.eqb_eq in Q. now subst.
  - intro H. exists o. split; [exact H | apply String.eqb_refl].
Qed.

Lemma ski_id L xs p c pr e : validate_ski L xs p c pr = Ok (Some e) -> x_id e = SKI.
Proof.
  unfold validate_ski. destruct (get_extension xs SKI) as [x|] eqn:G.
  - intro H. apply bind_inv in H as (k & _ & H). apply bind_inv in H as (u & _ & H). apply get_some in G as [G _].
    destruct c as [c|]; [destruct (Bool.eqb (x_crit x) c)|]; try (now injection H as <-).
    destruct pr; now injection H as <-.
  - destruct pr; intro H; [now injection H as <- | discriminate H].
Qed.

Lemma ski_prep L xs p c o : validate_ski L xs p c true = Ok o -> exists e, o = Some e.
Proof.
  unfold validate_ski. destruct (get_extension xs SKI) as [x|] eqn:G.
  - intro H. apply bind_inv in H as (k & _ & H). apply bind_inv in H as (u & _ & H).
    destruct c as [c|]; [destruct (Bool.eqb (x_crit x) c)|]; injection H as <-; eauto.
  - intro H. injection H as <-. eauto.
Qed.

(** The types added depend on the types alone. *)
Fixpoint add_ids (oids l : list oid) : list oid :=
  match oids with
  | [] => l
  | o :: r => if negb (existsb (String.eqb o) l) && negb (String.eqb o SKI) then add_ids r (l ++ [o]) else add_ids r l
  end.

Lemma contains_ids o l : contains_id o l = existsb (String.eqb o) (ids l).
Proof.
  unfold contains_id, ids. induction l as [|e r IH]; cbn; [reflexivity|]. now rewrite IH, String.eqb_sym.
Qed.

Lemma shared_ids oids src t t' : add_shared oids src t = Ok t' -> ids t' = add_ids oids (ids t).
Proof.
  revert t. induction oids as [|o r IH]; intros t H; cbn [add_shared add_ids] in *; [now injection H as <-|].
  rewrite contains_ids in H. destruct (negb (existsb (String.eqb o) (ids t)) && negb (String.eqb o SKI)).
  - destruct (get_extension src o) as [e|] eqn:G; [|discriminate H]. rewrite (IH _ H). apply get_some in G as [G _].
    unfold ids. rewrite map_app. cbn. now rewrite G.
  - now apply IH.
Qed.

Lemma add_ids_nodup oids l : NoDup l -> NoDup (add_ids oids l).
Proof.
  revert l. induction oids as [|o r IH]; intros l ND; cbn [add_ids]; [exact ND|].
  destruct (existsb (String.eqb o) l) eqn:E; cbn [negb andb]; [now apply IH|].
  destruct (negb (String.eqb o SKI)); [|now apply IH]. apply IH.
  assert (N : ~ In o l). { intro C. assert (T : existsb (String.eqb o) l = true) by (apply existsb_exists; exists o; split; [exact C | apply String.eqb_refl]). congruence. }
  clear -ND N. induction l as [|x l IH]; cbn; [constructor; [intros []|constructor]|]. inversion ND as [|? ? NI ND']; subst.
  constructor; [|apply IH; [exact ND' | intro C; apply N; now right]]. rewrite in_app_iff. intros [C | [C | []]]; [now apply NI | apply N; now left].
Qed.

Lemma add_ids_in oids l o : In o (add_ids oids l) -> In o l \/ In o oids.
Proof.
  revert l. induction oids as [|x r IH]; intros l H; cbn [add_ids] in H; [now left|].
  destruct (negb _ && negb _).
  - apply IH in H as [H | H]; [|right; now right]. apply in_app_iff in H as [H | [<- | []]]; [now left | right; now left].
  - apply IH in H as [H | H]; [now left | right; now right].
Qed.

Lemma remove_spec L bx bp dx dp oids ski crit add b d :
  remove_extensions L bx bp dx dp oids ski crit add = Ok (b, d) ->
  ids b = ids d /\ (forall o, In o (ids b) -> o = SKI \/ In o (ids add) \/ In o oids) /\
  (NoDup (ids add) -> ~ In SKI (ids add) -> NoDup (ids b)).
Proof.
  unfold remove_extensions. intro H. apply bind_inv in H as (u & _ & H). apply bind_inv in H as (bk & BK & H).
  apply bind_inv in H as (dk & DK & H). apply bind_inv in H as (b' & B & H). apply bind_inv in H as (d' & D & H). injection H as -> ->.
  apply shared_ids in B, D.
  assert (IB : ids ((if not_false ski then opt_list bk else []) ++ add) = (if not_false ski then [SKI] else []) ++ ids add /\
               ids ((if not_false ski then opt_list dk else []) ++ add) = (if not_false ski then [SKI] else []) ++ ids add).
  { destruct (not_false ski); [|now split]. destruct (ski_prep _ _ _ _ _ BK) as (e & ->). destruct (ski_prep _ _ _ _ _ DK) as (e' & ->).
    apply ski_id in BK, DK. unfold ids. cbn. now rewrite BK, DK. }
  destruct IB as [IB ID]. rewrite IB in B. rewrite ID in D. split; [congruence|]. rewrite B. split.
  - intros o O. apply add_ids_in in O as [O | O]; [|now right; right]. apply in_app_iff in O as [O | O]; [|now right; left].
    destruct (not_false ski); [destruct O as [<- | []]; now left | destruct O].
  - intros ND N. apply add_ids_nodup. destruct (not_false ski); [|exact ND]. cbn. now constructor.
Qed.

Lemma loop_spec xs t t' : parse_loop xs t = Ok t' ->
  ~ In DCD (ids xs) /\ (forall o, In o (ids t') -> In o (ids t) \/ In o (ids xs)).
Proof.
  revert t. induction xs as [|x r IH]; intros t H; cbn [parse_loop] in H.
  - injection H as <-. split; [intros [] | now left].
  - apply bind_inv in H as (u & G & H). apply guard_ok in G. apply negb_true_iff, String.eqb_neq in G.
    destruct (String.eqb (x_id x) SKI).
    + destruct (IH _ H) as [N I]. split; [cbn; intros [C | C]; [now apply G | now apply N]|]. intros o O. destruct (I o O); [now left | right; now right].
    + destruct (IH _ H) as [N I]. split; [cbn; intros [C | C]; [now apply G | now apply N]|]. intros o O. destruct (I o O) as [Q | Q]; [|right; now right].
      destruct (contains_id (x_id x) t); [now left|]. unfold ids in Q. rewrite map_app in Q. apply in_app_iff in Q as [Q | [<- | []]]; [now left | right; now left].
Qed.

Lemma parse_spec L xs p t ski crit t' : parse_extension L xs p t ski crit = Ok t' ->
  ~ In DCD (ids xs) /\ (forall o, In o (ids t') -> o = SKI \/ In o (ids t) \/ In o (ids xs)).
Proof.
  unfold parse_extension. destruct xs as [|x r]; [intro H; injection H as <-; split; [intros [] | intros; now right; left]|].
  intro H. apply bind_inv in H as (k & K & H). apply loop_spec in H as [N I]. split; [exact N|]. intros o O.
  destruct (I o O) as [Q | Q]; [|now right; right].
  destruct k as [e|]; [|now right; left]. apply ski_id in K.
  assert (QQ : In o (ids t) \/ o = SKI).
  { destruct ski as [[]|]; unfold ids in Q; rewrite map_app in Q; apply in_app_iff in Q as [Q | [<- | []]]; try (now left); right; cbn; assumption || reflexivity. }
  destruct QQ; [now right; left | now left].
Qed.

(** A descriptor reaches the base certificate only from the CA's own extensions, or from both parts of the request. *)
Lemma process_dcd L c q o bx dx : process_extensions L c q o = Ok (bx, dx) -> In DCD (ids bx) ->
  In DCD (ids (o_add o)) \/
  (exists xs, csr_extensions L (i_attrs (r_info c)) = Ok (Some xs) /\ In DCD (ids xs) /\ In DCD (ids (q_exts q))).
Proof.
  unfold process_extensions. intros H I. apply bind_inv in H as (ox & OX & H). rewrite OX.
  destruct ox as [bs|]; destruct (q_exts q) as [|x xs] eqn:QX.
  - apply bind_inv in H as (bp & _ & H). apply bind_inv in H as (dp & _ & H). apply bind_inv in H as (b & B & H). injection H as <- _.
    apply parse_spec in B as [N B]. apply B in I as [I | [I | I]]; [discriminate I | now elim N | now elim N].
  - apply bind_inv in H as (bp & _ & H). apply bind_inv in H as (dp & _ & H).
    assert (R : forall b d, remove_extensions L bs bp (x :: xs) dp (shared bs (x :: xs)) (o_ski o) (o_crit o) (o_add o) = Ok (b, d) -> In DCD (ids b) ->
      In DCD (ids (o_add o)) \/ (exists ys, Ok (Some bs) = Ok (Some ys) /\ In DCD (ids ys) /\ In DCD (ids (x :: xs)))).
    { intros b d R IB. apply remove_spec in R as (_ & R & _). apply R in IB as [IB | [IB | IB]]; [discriminate IB | now left|]. right.
      unfold shared in IB. apply filter_In in IB as [IB1 IB2]. apply in_ids_iff in IB2. exists bs. split; [reflexivity|]. split; [exact IB1 | exact IB2]. }
    destruct (not_included bs (x :: xs)); [now apply (R _ _ H)|]. destruct (o_strict o); [discriminate H|]. destruct (o_same o); [now apply (R _ _ H)|].
    apply bind_inv in H as (b & B & H). apply bind_inv in H as (d & D & H). injection H as <- _. apply parse_spec in B as [N B].
    apply B in I as [I | [I | I]]; [discriminate I | now left | now elim N].
  - destruct (match o_ski o with Some true => true | _ => false end).
    + apply bind_inv in H as (bp & _ & H). apply bind_inv in H as (dp & _ & H). injection H as <- _. left.
      unfold ids in I. rewrite map_app in I. apply in_app_iff in I as [I | [I | []]]; [exact I | discriminate I].
    + injection H as <- _. now left.
  - apply bind_inv in H as (dp & _ & H). apply bind_inv in H as (d & D & H). injection H as <- _. apply parse_spec in D as [N D].
    apply D in I as [I | [I | I]]; [discriminate I | now left | now elim N].
Qed.

(** ** Certificates built *)

Lemma build_cert_inv L su sp xs se va is k h pss c : build_cert L su sp xs se va is k h pss = Ok c ->
  exists a, l_alg L k (Some h) pss = Ok a /\
    c_tbs c = {| t_version := 2; t_serial := se; t_alg := a; t_issuer := is; t_validity := va; t_subject := su; t_spki := sp;
                 t_uids := []; t_exts := xs |} /\ c_alg c = a /\ l_sign L k (Some h) pss (l_tbs L (c_tbs c)) = Ok (c_sig c).
Proof.
  unfold build_cert, sign_cert. intro H. apply bind_inv in H as (u & _ & H). apply bind_inv in H as (a & A & H).
  apply bind_inv in H as (p & _ & H). apply bind_inv in H as (a' & A' & H). apply bind_inv in H as (s & S & H). injection H as <-.
  assert (a' = a) by congruence. subst a'. exists a. cbn. repeat split; assumption.
Qed.

Lemma issue_inv L c k is o p d : issue_paired L c k is o = Ok (p, d) ->
  exists q bp dp bx dx b ab, verify_paired_csr L c = Ok q /\ l_load L (i_spki (r_info c)) = Ok bp /\ l_load L (q_spki q) = Ok dp /\
    validate_keys bp dp = Ok tt /\ process_extensions L c q o = Ok (bx, dx) /\
    c_tbs b = {| t_version := 2; t_serial := o_serial1 o; t_alg := ab; t_issuer := is; t_validity := o_validity o;
                 t_subject := i_subject (r_info c); t_spki := i_spki (r_info c); t_uids := []; t_exts := bx |} /\
    l_alg L k (Some "sha256") (o_pss o) = Ok ab /\
    build_cert L (match q_subject q with Some n => n | None => i_subject (r_info c) end) (q_spki q) dx
                       (o_serial2 o) (o_validity o) is k (o_hash o) (o_pss o) = Ok d /\
    build_paired L d (c_tbs b) k (o_pss o) false None = Ok p.
Proof.
  unfold issue_paired. intro H. apply bind_inv in H as (q & Q & H). apply bind_inv in H as (bp & BP & H). apply bind_inv in H as (dp & DP & H).
  apply bind_inv in H as ([] & K & H). apply bind_inv in H as ([bx dx] & X & H). apply bind_inv in H as (b & B & H).
  apply bind_inv in H as (d' & D & H). apply bind_inv in H as (p' & P & H). injection H as -> ->.
  destruct (build_cert_inv _ _ _ _ _ _ _ _ _ _ _ B) as (ab & AB & TB & _). exists q, bp, dp, bx, dx, b, ab. repeat split; assumption.
Qed.

(** What is issued, and to whom. *)
Theorem issued L c k is o p d : cham_ok L -> issue_paired L c k is o = Ok (p, d) ->
  exists q bp dp, base_proven L c /\ delta_proven L c q /\
    l_load L (i_spki (r_info c)) = Ok bp /\ l_load L (q_spki q) = Ok dp /\ p_verify bp = true /\ p_verify dp = true /\
    p_id dp <> p_id bp /\ size_allowed bp /\ size_allowed dp /\
    t_spki (c_tbs p) = i_spki (r_info c) /\ t_spki (c_tbs d) = q_spki q /\
    t_subject (c_tbs p) = i_subject (r_info c) /\ given (q_subject q) (i_subject (r_info c)) (t_subject (c_tbs d)) /\
    t_issuer (c_tbs p) = is /\ t_issuer (c_tbs d) = is /\
    t_serial (c_tbs p) = o_serial1 o /\ t_serial (c_tbs d) = o_serial2 o /\
    t_validity (c_tbs p) = o_validity o /\ t_validity (c_tbs d) = o_validity o /\
    c_alg p = t_alg (c_tbs p) /\ c_alg d = t_alg (c_tbs d) /\
    l_verify L (s_pub k) (c_alg p) (l_tbs L (c_tbs p)) (c_sig p) = Ok tt /\
    l_verify L (s_pub k) (c_alg d) (l_tbs L (c_tbs d)) (c_sig d) = Ok tt.
Proof.
  intros OK H. apply issue_inv in H as (q & bp & dp & bx & dx & b & ab & Q & BP & DP & K & X & TB & AB & D & P).
  apply verify_exact in Q as (Q1 & _ & Q2). apply keys_exact in K as (K1 & K2 & K3 & K4 & K5).
  apply build_cert_inv in D as (ad & AD & TD & CD & SD). apply build_inv in P as (h & ap & s & HH & AP & TP & CP & SP & CS).
  exists q, bp, dp. rewrite TP, TB, TD, CP, CD. cbn [set_talg set_texts t_spki t_subject t_issuer t_serial t_validity t_alg].
  do 9 (split; [assumption|]). do 3 (split; [reflexivity|]). split; [destruct (q_subject q); [now left | now right]|]. do 8 (split; [reflexivity|]).
  split.
  - apply (ck_sig _ OK) with (h := h) (pss := o_pss o); [exact AP|]. rewrite CS. rewrite <- SP, TP, TB. reflexivity.
  - apply (ck_sig _ OK) with (h := Some (o_hash o)) (pss := o_pss o); [exact AD|]. rewrite <- SD, TD. reflexivity.
Qed.

Theorem issued_delta_key L c k is o p d : cham_ok L -> issue_paired L c k is o = Ok (p, d) ->
  ~ In DCD (ids (o_add o)) ->
  (forall xs, csr_extensions L (i_attrs (r_info c)) = Ok (Some xs) -> ~ In DCD (ids xs)) ->
  delta_public_key L p = Ok (t_spki (c_tbs d)).
Proof.
  intros OK H NA NX. apply issue_inv in H as (q & bp & dp & bx & dx & b & ab & Q & BP & DP & K & X & TB & AB & D & P).
  apply (delta_key_built _ _ _ _ _ _ _ _ OK) in P; [exact P|]. rewrite TB. cbn [t_exts]. intro I.
  destruct (process_dcd _ _ _ _ _ _ X I) as [A | (xs & A & A1 & _)]; [now apply NA | exact (NX _ A A1)].
Qed.

Theorem issued_rebuilds L c k is o p d q : cham_ok L -> issue_paired L c k is o = Ok (p, d) -> verify_paired_csr L c = Ok q ->
  both_extended L c q o -> own_extensions o ->
  forall a, l_alg L k (Some "sha256") (o_pss o) = Ok a ->
  (rebuild L p = Ok d <->
   (t_alg (c_tbs d) = a /\ t_alg (c_tbs p) = a) \/ (t_alg (c_tbs d) <> a /\ g_par (t_alg (c_tbs d)) = None)).
Proof.
  intros OK H VQ BE OE a A. apply issue_inv in H as (q' & bp & dp & bx & dx & b & ab & Q & BP & DP & K & X & TB & AB & D & P).
  assert (q' = q) by congruence. subst q'. assert (ab = a) by congruence. subst ab.
  destruct OE as (ND & NS & NA). destruct BE as (xs & CX & XN & QN & NB & INC).
  assert (R : exists bp' dp', remove_extensions L xs bp' (q_exts q) dp' (shared xs (q_exts q)) (o_ski o) (o_crit o) (o_add o) = Ok (bx, dx)).
  { unfold process_extensions in X. rewrite CX in X. cbn [bind] in X. destruct (q_exts q) as [|y ys] eqn:QX; [now elim QN|].
    apply bind_inv in X as (bp' & _ & X). apply bind_inv in X as (dp' & _ & X). exists bp', dp'.
    destruct (not_included xs (y :: ys)) as [|z zs] eqn:NI; [exact X|].
    destruct INC as [INC | [I1 I2]].
    - exfalso. assert (Z : In z (not_included xs (y :: ys))) by (rewrite NI; now left). unfold not_included in Z. apply filter_In in Z as [Z1 Z2].
      apply INC, in_ids_iff in Z1. rewrite Z1 in Z2. discriminate Z2.
    - rewrite I1, I2 in X. exact X. }
  destruct R as (bp' & dp' & R). apply remove_spec in R as (RE & RI & RN). specialize (RN ND NS).
  assert (NDCD : ~ In DCD (ids bx)).
  { intro C. apply RI in C as [C | [C | C]]; [discriminate C | now apply NA|]. unfold shared in C. apply filter_In in C as [C1 C2]. apply in_ids_iff in C2.
    destruct NB as [NB | NB]; now apply NB. }
  apply build_cert_inv in D as (ad & AD & TD & CD & SD).
  assert (RN' : NoDup (ids (t_exts (c_tbs b)))) by (rewrite TB; exact RN).
  assert (ND' : ~ In DCD (ids (t_exts (c_tbs b)))) by (rewrite TB; exact NDCD).
  rewrite (rebuilt_exact _ _ _ _ _ _ _ _ OK RN' ND' P).
  apply build_inv in P as (h & ap & s & HH & AP & TP & CP & SP & CS).
  assert (TAP : t_alg (c_tbs p) = ap) by (rewrite TP; reflexivity). rewrite TAP.
  assert (TAD : t_alg (c_tbs d) = ad) by (rewrite TD; reflexivity). rewrite TAD. split.
  - intros [_ _ _ RA]. rewrite TAD, TAP, TB in RA. cbn [t_alg] in RA. destruct RA as [(R1 & R2 & _) | (R1 & R2 & _)]; [left | right]; split; congruence.
  - intro G. constructor; try (rewrite TD, TB; reflexivity).
    + rewrite TD, TB. cbn [t_exts]. now symmetry.
    + rewrite TAD, TAP, TB. cbn [t_alg]. destruct G as [[G1 G2] | [G1 G2]]; [left | right].
      * split; [exact G1|]. split; congruence.
      * split; [exact G1|]. split; [exact G2 | exact CD].
Qed.

(** With the default hash, and an algorithm that names it, it always can be. *)
Theorem issued_default L c k is o p d q a : cham_ok L -> issue_paired L c k is o = Ok (p, d) -> verify_paired_csr L c = Ok q ->
  both_extended L c q o -> own_extensions o -> o_hash o = "sha256" ->
  l_alg L k (Some "sha256") (o_pss o) = Ok a -> l_hash L (g_oid a) = Ok (Some "sha256") ->
  rebuild L p = Ok d.
Proof.
  intros OK H VQ BE OE OH A LH. apply (proj2 (issued_rebuilds _ _ _ _ _ _ _ _ OK H VQ BE OE a A)). left.
  apply issue_inv in H as (q' & bp & dp & bx & dx & b & ab & Q & BP & DP & K & X & TB & AB & D & P).
  apply build_cert_inv in D as (ad & AD & TD & CD & SD). rewrite OH in AD.
  apply build_inv in P as (h & ap & s & HH & AP & TP & CP & SP & CS).
  assert (TD' : t_alg (c_tbs d) = ad) by (rewrite TD; reflexivity). assert (EA : ad = a) by congruence. assert (TA : t_alg (c_tbs d) = a) by congruence. cbn iota in HH. rewrite TA, LH in HH.
  assert (h = Some "sha256") by congruence. subst h. split; [exact TA|]. rewrite TP. cbn [set_talg t_alg]. congruence.
Qed.

(** Descriptors in a request are refused unless both parts of it carry one. *)
Theorem descriptor_reaches L c k is o p d : issue_paired L c k is o = Ok (p, d) -> ~ In DCD (ids (o_add o)) ->
  forall q, verify_paired_csr L c = Ok q ->
  (exists n, (List.length (filter (fun e => String.eqb (x_id e) DCD) (t_exts (c_tbs p))) = S (S n))%nat) ->
  exists xs, csr_extensions L (i_attrs (r_info c)) = Ok (Some xs) /\ In DCD (ids xs) /\ In DCD (ids (q_exts q)).
Proof.
  intros H NA q VQ (n & E). apply issue_inv in H as (q' & bp & dp & bx & dx & b & ab & Q & BP & DP & K & X & TB & AB & D & P).
  assert (q' = q) by congruence. subst q'. apply build_inv in P as (h & ap & s & HH & AP & TP & CP & SP & CS).
  rewrite TP, TB in E. cbn [set_talg set_texts t_exts] in E. rewrite filter_app, app_length in E. cbn in E.
  assert (I : In DCD (ids bx)).
  { destruct (filter (fun e => String.eqb (x_id e) DCD) bx) as [|y ys] eqn:F; [cbn in E; discriminate E|].
    assert (Y : In y (filter (fun e => String.eqb (x_id e) DCD) bx)) by (rewrite F; now left). apply filter_In in Y as [Y1 Y2].
    apply String.eqb_eq in Y2. rewrite <- Y2. now apply in_map. }
  destruct (process_dcd _ _ _ _ _ _ X I) as [C | C]; [now elim NA | exact C].
Qed.

(** ** The extensions issued *)

Lemma shared_in oids src t t' : add_shared oids src t = Ok t' ->
  (forall e, In e t -> In e t') /\
  (forall e, In e t' -> In e t \/ (~ In (x_id e) (ids t) /\ In (x_id e) oids /\ x_id e <> SKI /\ get_extension src (x_id e) = Some e)) /\
  (forall o, In o oids -> o <> SKI -> In o (ids t')).
Proof.
  revert t. induction oids as [|o r IH]; intros t H; cbn [add_shared] in H.
  - injection H as <-. split; [tauto|]. split; [tauto | intros o []].
  - destruct (contains_id o t) eqn:C; cbn [negb andb] in H.
    + destruct (IH _ H) as (A & B & D). split; [exact A|]. split.
      * intros e E. destruct (B e E) as [Q | (Q1 & Q2 & Q)]; [now left | right; split; [exact Q1 | split; [now right | exact Q]]].
      * intros o' [<- | O'] N; [|now apply D]. apply contains_in in C. unfold ids in C. apply in_map_iff in C as (e & <- & E). apply in_map. now apply A.
    + assert (NC : ~ In o (ids t)) by (intro Q; apply contains_in in Q; congruence).
      destruct (String.eqb o SKI) eqn:K; cbn [negb] in H.
      * apply String.eqb_eq in K. destruct (IH _ H) as (A & B & D). split; [exact A|]. split.
        -- intros e E. destruct (B e E) as [Q | (Q1 & Q2 & Q)]; [now left | right; split; [exact Q1 | split; [now right | exact Q]]].
        -- intros o' [<- | O'] N; [now elim N | now apply D].
      * apply String.eqb_neq in K. destruct (get_extension src o) as [x|] eqn:G; [|discriminate H]. pose proof (get_some _ _ _ G) as [GI GX].
        destruct (IH _ H) as (A & B & D). split; [intros e E; apply A, in_app_iff; now left|]. split.
        -- intros e E. destruct (B e E) as [Q | (Q1 & Q2 & Q)].
           ++ apply in_app_iff in Q as [Q | [<- | []]]; [now left|]. right. rewrite GI. split; [exact NC|]. split; [now left|]. now split.
           ++ right. split; [|split; [now right | exact Q]]. intro C'. apply Q1. unfold ids. rewrite map_app. apply in_app_iff. now left.
        -- intros o' [<- | O'] N; [|now apply D]. rewrite <- GI. apply in_map, A, in_app_iff. right. now left.
Qed.

Lemma ski_value L xs p c pr e : cham_ok L -> validate_ski L xs p c pr = Ok (Some e) -> l_kdec L (x_val e) = Ok (l_ski L p).
Proof.
  intro OK. unfold validate_ski. destruct (get_extension xs SKI) as [x|] eqn:G.
  - intro H. apply bind_inv in H as (k & K & H). apply bind_inv in H as (u & U & H). apply guard_ok, bytes_eqb_iff in U. subst k.
    destruct c as [c|]; [destruct (Bool.eqb (x_crit x) c)|]; try (now injection H as <-).
    destruct pr; injection H as <-; cbn; apply (ck_kid _ OK).
  - destruct pr; intro H; [injection H as <-; cbn; apply (ck_kid _ OK) | discriminate H].
Qed.

Lemma carries_of L o p asked other oids x t : cham_ok L ->
  (forall i, In i oids <-> In i (ids asked) /\ In i (ids other)) -> ~ In SKI (ids (o_add o)) ->
  (exists xs c, validate_ski L xs p c (not_false (o_ski o)) = Ok x) ->
  add_shared oids asked ((if not_false (o_ski o) then opt_list x else []) ++ o_add o) = Ok t -> carries L o p asked other t.
Proof.
  intros OK OI NS (xs & c & V) H. destruct (shared_in _ _ _ _ H) as (A & B & D). clear H.
  assert (PRE : forall e, In e ((if not_false (o_ski o) then opt_list x else []) ++ o_add o) ->
            (x_id e = SKI /\ l_kdec L (x_val e) = Ok (l_ski L p) /\ not_false (o_ski o) = true) \/ In e (o_add o)).
  { intros e E. apply in_app_iff in E as [E | E]; [|now right]. left. destruct (not_false (o_ski o)); [|destruct E].
    destruct x as [y|]; [|destruct E]. destruct E as [<- | []]. split; [exact (ski_id _ _ _ _ _ _ V)|]. split; [exact (ski_value _ _ _ _ _ _ OK V) | reflexivity]. }
  assert (NF : not_false (o_ski o) = true <-> o_ski o <> Some false) by (destruct (o_ski o) as [[]|]; cbn; split; congruence).
  split.
  - intro i. split.
    + intro I. unfold ids in I. apply in_map_iff in I as (e & <- & E). apply B in E as [E | (E1 & E2 & E3 & E4)].
      * apply PRE in E as [(E1 & _ & E2) | E]; [left; split; [exact E1 | now apply NF] | right; left; now apply in_map].
      * right. right. split; [exact E3 | now apply OI].
    + intros [(-> & N) | [I | (N & I)]].
      * apply NF in N. rewrite N in V. destruct (ski_prep _ _ _ _ _ V) as (e & ->). rewrite <- (ski_id _ _ _ _ _ _ V). apply in_map, A. rewrite N. now left.
      * unfold ids in I. apply in_map_iff in I as (e & <- & E). apply in_map, A, in_app_iff. now right.
      * apply D; [now apply OI | exact N].
  - intros e E. apply B in E as [E | (E1 & E2 & E3 & E4)].
    + apply PRE in E as [(E1 & E2 & _) | E]; [left; now split | right; now left].
    + right. right. split; [|exact E4]. intro C. apply E1. unfold ids. rewrite map_app. apply in_app_iff. now right.
Qed.

Theorem issued_extensions L c k is o p d q : cham_ok L -> issue_paired L c k is o = Ok (p, d) -> verify_paired_csr L c = Ok q ->
  both_extended L c q o -> own_extensions o ->
  exists xs bp dp, csr_extensions L (i_attrs (r_info c)) = Ok (Some xs) /\
    l_load L (t_spki (c_tbs p)) = Ok bp /\ l_load L (t_spki (c_tbs d)) = Ok dp /\
    carries L o bp xs (q_exts q) (others (t_exts (c_tbs p))) /\ carries L o dp (q_exts q) xs (t_exts (c_tbs d)).
Proof.
  intros OK H VQ BE OE. apply issue_inv in H as (q' & bp & dp & bx & dx & b & ab & Q & BP & DP & K & X & TB & AB & D & P).
  assert (q' = q) by congruence. subst q'. pose proof X as X0.
  destruct OE as (ND & NS & NA). destruct BE as (xs & CX & XN & QN & NB & INC).
  apply build_cert_inv in D as (ad & AD & TD & CD & SD). apply build_inv in P as (h & ap & s & HH & AP & TP & CP & SP & CS).
  exists xs, bp, dp. split; [exact CX|]. rewrite TP, TD, TB. cbn [set_talg set_texts t_spki t_exts]. split; [exact BP|]. split; [exact DP|].
  assert (R : remove_extensions L xs bp (q_exts q) dp (shared xs (q_exts q)) (o_ski o) (o_crit o) (o_add o) = Ok (bx, dx)).
  { unfold process_extensions in X. rewrite CX, BP, DP in X. cbn [bind] in X. destruct (q_exts q) as [|y ys] eqn:QX; [now elim QN|].
    destruct (not_included xs (y :: ys)) as [|z zs] eqn:NI; [exact X|].
    destruct INC as [INC | [S1 S2]].
    - assert (Z : In z (not_included xs (y :: ys))) by (rewrite NI; now left). unfold not_included in Z. apply filter_In in Z as [Z1 Z2].
      apply INC in Z1. apply in_ids_iff in Z1. rewrite Z1 in Z2. discriminate Z2.
    - rewrite S1, S2 in X. exact X. }
  assert (NDCD : ~ In DCD (ids bx)).
  { intro C. destruct (process_dcd _ _ _ _ _ _ X0 C) as [C1 | (ys & C1 & C2 & C3)]; [now apply NA|]. assert (ys = xs) by congruence. subst ys. destruct NB; tauto. }
  assert (OB : others (bx ++ [{| x_id := DCD; x_crit := false; x_val := l_denc L (prepare_dcd d (c_tbs b)) |}]) = bx).
  { unfold others. rewrite filter_app. cbn [filter x_id]. rewrite String.eqb_refl. cbn [negb]. rewrite app_nil_r. clear -NDCD.
    induction bx as [|e r IH]; [reflexivity|]. cbn [filter]. destruct (String.eqb (x_id e) DCD) eqn:E; cbn [negb].
    - elim NDCD. left. now apply String.eqb_eq.
    - f_equal. apply IH. intro C. apply NDCD. now right. }
  rewrite TB in OB. rewrite OB.
  assert (SH : forall i, In i (shared xs (q_exts q)) <-> In i (ids xs) /\ In i (ids (q_exts q))).
  { intro i. unfold shared. rewrite filter_In, in_ids_iff. reflexivity. }
  unfold remove_extensions in R. apply bind_inv in R as (u & _ & R). apply bind_inv in R as (bk & BK & R). apply bind_inv in R as (dk & DK & R).
  apply bind_inv in R as (b' & B' & R). apply bind_inv in R as (d' & D' & R). assert (b' = bx) by congruence. assert (d' = dx) by congruence. subst b' d'. split.
  - apply (carries_of _ _ _ _ _ _ _ _ OK SH NS) with (2 := B'). now exists xs, None.
  - assert (SH' : forall i, In i (shared xs (q_exts q)) <-> In i (ids (q_exts q)) /\ In i (ids xs)) by (intro i; rewrite SH; tauto).
    apply (carries_of _ _ _ _ _ _ _ _ OK SH' NS) with (2 := D'). now exists (q_exts q), (Some (o_crit o)).
Qed.
