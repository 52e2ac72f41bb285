From Coq Require Import String Permutation.
From Verif Require Import Prelude HdrModel ProtMac ProtSig ChamModel ChamSpec ChamProofs ChamReq ChamIssue.
Open Scope string_scope.
Open Scope Z_scope.
Open Scope list_scope.

(** ** A certificate's descriptor against the base extensions *)

Theorem validate_cert_exact L c base : validate_dcd_cert L c base = Ok tt <->
  exists e before after d rest, t_exts (c_tbs c) = before ++ e :: after /\ ~ In DCD (ids before) /\ x_id e = DCD /\
    l_ddec L (x_val e) = Some (d, rest) /\ validate_dcd_exts (d_exts d) base = Ok tt.
Proof.
  unfold validate_dcd_cert. split.
  - destruct (get_extension (t_exts (c_tbs c)) DCD) as [e|] eqn:G; [|discriminate].
    destruct (l_ddec L (x_val e)) as [[d r]|] eqn:D; [|discriminate]. intro H.
    apply get_split in G as (b & a & G1 & G2 & G3). exists e, b, a, d, r. repeat (split; [assumption|]). exact H.
  - intros (e & b & a & d & r & E & N & I & D & V).
    assert (G : get_extension (t_exts (c_tbs c)) DCD = Some e) by (apply get_split; exists b, a; split; [exact E | split; assumption]).
    rewrite G, D. exact V.
Qed.

(** ** The signature of the delta key *)

Theorem signature_exact L c s : delta_request_signature L c = Ok s <->
  attrs_decode L c /\ exists w, last_value REQSIG (i_attrs (r_info c)) w /\ l_sdec L w = Ok s.
Proof.
  unfold delta_request_signature. split.
  - destruct (extract_attrs L (i_attrs (r_info c)) [] None None) as [r|] eqn:E; [|discriminate].
    pose proof (extract_dec _ _ _ _ _ _ E) as D. rewrite (extract_val _ _ _ _ _ D) in E. injection E as <-. cbn [bind].
    destruct (lastv REQSIG (i_attrs (r_info c))) as [w|] eqn:W; [|discriminate]. destruct (l_sdec L w) as [x|] eqn:X; [|discriminate].
    cbn [opt_of]. intro H. injection H as ->. split; [exact D|]. exists w. split; [now apply lastv_iff | exact X].
  - intros (D & w & W & X). rewrite (extract_val _ _ _ _ _ D). cbn [bind]. apply lastv_iff in W. rewrite W, X. reflexivity.
Qed.

(** ** The extensions asked for in the base part *)

Theorem asked_exact L l xs : csr_extensions L l = Ok (Some xs) <-> exists v, first_value EXTREQ l v /\ l_xdec L v = Ok xs.
Proof.
  induction l as [|a r IH]; cbn [csr_extensions].
  - split; [discriminate|]. intros (v & (b & a & t & E & _) & _). now destruct b.
  - destruct (String.eqb (a_type a) EXTREQ) eqn:T.
    + apply String.eqb_eq in T. split.
      * destruct (l_xdec L (a_val a)) as [x|] eqn:X; [|discriminate]. cbn [bind]. intro H. injection H as ->. exists (a_val a). split; [|exact X].
        exists [], a, r. repeat (split; [first [reflexivity | assumption]|]). intros [].
      * intros (v & (b & x & t & E & TX & V & N) & X). destruct b as [|y b].
        -- injection E as -> ->. rewrite V, X. reflexivity.
        -- injection E as <- E. elim N. now left.
    + apply String.eqb_neq in T. rewrite IH. split; intros (v & (b & x & t & E & TX & V & N) & X); exists v; (split; [|exact X]).
      * exists (a :: b), x, t. rewrite E. repeat (split; [first [reflexivity | assumption]|]). intros [C | C]; [now apply T | now apply N].
      * destruct b as [|y b]; [injection E as -> _; now elim T|]. injection E as <- E. exists b, x, t. repeat (split; [assumption|]).
        intro C. apply N. now right.
Qed.

Theorem unasked_exact L l : csr_extensions L l = Ok None <-> ~ In EXTREQ (map a_type l).
Proof.
  induction l as [|a r IH]; cbn [csr_extensions map In]; [tauto|].
  destruct (String.eqb (a_type a) EXTREQ) eqn:T.
  - apply String.eqb_eq in T. split; [|intro N; elim N; now left]. destruct (l_xdec L (a_val a)); discriminate.
  - apply String.eqb_neq in T. rewrite IH. tauto.
Qed.

(** ** Certificates for requests without extensions *)

Theorem issued_unasked L c k is o p d q : issue_paired L c k is o = Ok (p, d) -> verify_paired_csr L c = Ok q ->
  ~ In EXTREQ (map a_type (i_attrs (r_info c))) -> q_exts q = [] ->
  exists bp dp x, l_load L (t_spki (c_tbs p)) = Ok bp /\ l_load L (t_spki (c_tbs d)) = Ok dp /\ x_id x = DCD /\
    t_exts (c_tbs p) = o_add o ++ requested_ski L o bp ++ [x] /\ t_exts (c_tbs d) = o_add o ++ requested_ski L o dp.
Proof.
  intros H VQ N QX. apply issue_inv in H as (q' & bp & dp & bx & dx & b & ab & Q & BP & DP & K & X & TB & AB & D & P).
  assert (q' = q) by congruence. subst q'. unfold process_extensions in X. rewrite (proj2 (unasked_exact L _) N), QX, BP, DP in X. cbn [bind] in X.
  apply build_cert_inv in D as (ad & AD & TD & CD & SD). apply build_inv in P as (h & ap & s & HH & AP & TP & CP & SP & CS).
  exists bp, dp, {| x_id := DCD; x_crit := false; x_val := l_denc L (prepare_dcd d (c_tbs b)) |}. rewrite TP, TD, TB. cbn [set_talg set_texts t_spki t_exts].
  split; [exact BP|]. split; [exact DP|]. split; [reflexivity|]. unfold requested_ski. fold (ski_ext L bp (o_crit o)) (ski_ext L dp (o_crit o)).
  destruct (o_ski o) as [[]|]; injection X as <- <-; rewrite ?app_nil_r, <- ?app_assoc; split; reflexivity.
Qed.

(** ** … and for those with extensions in the base part only *)

Lemma loop_same xs t r : (forall x, In x xs -> In (x_id x) (ids t)) -> parse_loop xs t = Ok r -> r = t.
Proof.
  revert t. induction xs as [|x l IH]; cbn [parse_loop]; intros t I H; [now injection H|].
  apply bind_inv in H as (u & _ & H). destruct (String.eqb (x_id x) SKI).
  - apply (IH t); [|exact H]. intros y Y. apply I. now right.
  - assert (C : contains_id (x_id x) t = true).
    { apply contains_in, I. now left. }
    rewrite C in H. apply (IH t); [|exact H]. intros y Y. apply I. now right.
Qed.

Theorem issued_base_only L c k is o p d q xs : issue_paired L c k is o = Ok (p, d) -> verify_paired_csr L c = Ok q ->
  csr_extensions L (i_attrs (r_info c)) = Ok (Some xs) -> q_exts q = [] ->
  exists dp x ski, l_load L (t_spki (c_tbs d)) = Ok dp /\ x_id x = DCD /\
    t_exts (c_tbs p) = xs ++ ski ++ [x] /\ (forall e, In e ski -> x_id e = SKI) /\
    t_exts (c_tbs d) = o_add o ++ requested_ski L o dp.
Proof.
  intros H VQ N QX. apply issue_inv in H as (q' & bp & dp & bx & dx & b & ab & Q & BP & DP & K & X & TB & AB & D & P).
  assert (q' = q) by congruence. subst q'. unfold process_extensions in X. rewrite N, QX, BP, DP in X. cbn [bind] in X.
  apply bind_inv in X as (bb & PX & X).
  apply build_cert_inv in D as (ad & AD & TD & CD & SD). apply build_inv in P as (h & ap & s & HH & AP & TP & CP & SP & CS).
  assert (S : exists ski, bb = xs ++ ski /\ (forall e, In e ski -> x_id e = SKI)).
  { unfold parse_extension in PX. destruct xs as [|y ys]; [injection PX as <-; exists []; split; [reflexivity | intros e []]|].
    set (xs := y :: ys) in *. apply bind_inv in PX as (kk & KK & PX).
    apply loop_same in PX.
    - rewrite PX. destruct kk as [e|]; [|exists []; split; [now rewrite app_nil_r | intros z []]]. apply ski_id in KK.
      destruct (o_ski o) as [[]|]; (eexists; split; [reflexivity|]; intros z [<- | []]; first [exact KK | reflexivity]).
    - intros z Z. destruct kk as [e|]; [|now apply in_map].
      destruct (o_ski o) as [[]|]; unfold ids; rewrite map_app; apply in_or_app; left; now apply in_map. }
  destruct S as (ski & -> & S). exists dp, {| x_id := DCD; x_crit := false; x_val := l_denc L (prepare_dcd d (c_tbs b)) |}, ski. rewrite TP, TD, TB. cbn [set_talg set_texts t_spki t_exts].
  split; [exact DP|]. split; [reflexivity|]. unfold requested_ski. fold (ski_ext L dp (o_crit o)).
  destruct (o_ski o) as [[]|]; injection X as <- <-; rewrite ?app_nil_r, <- ?app_assoc; (split; [reflexivity | split; [exact S | reflexivity]]).
Qed.

(** ** The criticality of the key identifier *)

Lemma ski_crit L xs p c pr e : validate_ski L xs p (Some c) pr = Ok (Some e) -> x_crit e = c.
Proof.
  unfold validate_ski. destruct (get_extension xs SKI) as [x|] eqn:G.
  - intro H. apply bind_inv in H as (k & _ & H). apply bind_inv in H as (u & _ & H).
    destruct (Bool.eqb (x_crit x) c) eqn:E; [injection H as <-; now apply Bool.eqb_prop|]. destruct pr; now injection H as <-.
  - destruct pr; intro H; [now injection H as <- | discriminate H].
Qed.

Theorem issued_critical L c k is o p d q : issue_paired L c k is o = Ok (p, d) -> verify_paired_csr L c = Ok q ->
  both_extended L c q o -> own_extensions o ->
  forall e, In e (t_exts (c_tbs d)) -> x_id e = SKI -> x_crit e = o_crit o.
Proof.
  intros H VQ BE OE. apply issue_inv in H as (q' & bp & dp & bx & dx & b & ab & Q & BP & DP & K & X & TB & AB & D & P).
  assert (q' = q) by congruence. subst q'.
  destruct OE as (ND & NS & NA). destruct BE as (xs & CX & XN & QN & NB & INC).
  apply build_cert_inv in D as (ad & AD & TD & CD & SD). rewrite TD. cbn [t_exts].
  assert (R : remove_extensions L xs bp (q_exts q) dp (shared xs (q_exts q)) (o_ski o) (o_crit o) (o_add o) = Ok (bx, dx)).
  { unfold process_extensions in X. rewrite CX, BP, DP in X. cbn [bind] in X. destruct (q_exts q) as [|y ys] eqn:QX; [now elim QN|].
    destruct (not_included xs (y :: ys)) as [|z zs] eqn:NI; [exact X|].
    destruct INC as [INC | [S1 S2]].
    - assert (Z : In z (not_included xs (y :: ys))) by (rewrite NI; now left). unfold not_included in Z. apply filter_In in Z as [Z1 Z2].
      apply INC in Z1. apply in_ids_iff in Z1. rewrite Z1 in Z2. discriminate Z2.
    - rewrite S1, S2 in X. exact X. }
  unfold remove_extensions in R. apply bind_inv in R as (u & _ & R). apply bind_inv in R as (bk & BK & R). apply bind_inv in R as (dk & DK & R).
  apply bind_inv in R as (b' & B' & R). apply bind_inv in R as (d' & D' & R). assert (d' = dx) by congruence. subst d'.
  intros e E I. destruct (shared_in _ _ _ _ D') as (_ & S & _). destruct (S e E) as [S1 | (_ & _ & S1 & _)]; [|now elim S1].
  apply in_app_or in S1 as [S1 | S1]; [|elim NS; rewrite <- I; now apply in_map].
  destruct (not_false (o_ski o)); [|destruct S1]. destruct dk as [y|]; [|destruct S1]. destruct S1 as [<- | []]. now apply ski_crit in DK.
Qed.
