(** Lemmas about controls and registration tokens. *)
From Coq Require Import String Ascii Lia Permutation.
From Verif Require Import Prelude PreludeFacts PyStr CompLoadModel HdrModel ProtTab ProtModel ProtSpec ProtMac ProtSig PopModel PopSpec PopProofs PopIssue PopMore CtrlModel CtrlSpec.
Open Scope string_scope.
Open Scope Z_scope.
Local Notation length := List.length.

Lemma text_exact : forall X ty l must ex s, validate_text X ty l must ex = Ok s <-> text_ok X ty l must ex s.
Proof.
  intros X ty l must ex s. unfold validate_text, text_ok. destruct (first_of ty l) as [v|] eqn:F.
  - pose proof (proj1 (first_some _ _ _) F) as TF. split.
    + intro H. apply bind_inv in H as ([] & H1 & H). apply guard_err_false in H1. apply unique_spec in H1.
      destruct (x_text X v) as [[t [|z y]]|] eqn:T; try discriminate. right. exists v, t. do 3 (split; [assumption|]).
      destruct ex as [e|]; [|split; [now left|congruence]]. apply bind_inv in H as ([] & H2 & H). apply guard_err_false in H2.
      apply String.eqb_eq in H2. subst e. split; [now right|congruence].
    + intros [(N & _)|(v' & t & TF' & D & T & EX & ->)]; [apply first_none in N; congruence|].
      apply first_some in TF'. assert (v' = v) by congruence. subst v'. rewrite (proj2 (unique_spec _) D). cbn [guard bind]. rewrite T.
      destruct EX as [-> | ->]; [reflexivity|]. now rewrite String.eqb_refl.
  - pose proof (proj1 (first_none _ _) F) as N. split.
    + intro H. left. split; [exact N|]. destruct must; [discriminate|]. split; [reflexivity|congruence].
    + intros [(_ & -> & ->)|(v' & t & TF' & _)]; [reflexivity|]. apply first_some in TF'. congruence.
Qed.
Lemma keygen_exact : forall E X t b, validate_key_gen E X t b = Ok tt <->
  exists d k k', t_key t = TKey d /\ e_load E d = Ok (Pub k) /\ x_name X (Pub k) = Ok tt /\ x_generate X (Pub k) b = Ok k' /\ e_same E k' k = true.
Proof.
  intros E X t b. unfold validate_key_gen. split.
  - intro H. apply bind_inv in H as ([p|] & H1 & H); [|discriminate]. apply tmpl_key_some in H1 as (d & D & L).
    apply bind_inv in H as ([] & H2 & H). apply bind_inv in H as (k' & H3 & H). apply catch_ok in H3. apply guard_err_false in H.
    destruct p as [k|]; [|discriminate]. exists d, k, k'. auto.
  - intros (d & k & k' & D & L & N & G & S'). rewrite (proj2 (tmpl_key_some E true t (Pub k))) by eauto. cbn [bind]. rewrite N. cbn [bind].
    rewrite G. cbn [catch bind]. now rewrite S'.
Qed.
Lemma archive_exact : forall E X l must t, validate_archive E X l must t = Ok tt <-> archive_ok E X l must t.
Proof.
  intros E X l must t. unfold validate_archive, archive_ok. destruct (first_of _ l) as [v|] eqn:F.
  - pose proof (proj1 (first_some _ _ _) F) as TF. split.
    + intro H. destruct (x_archive X v) as [[a [|z y]]|] eqn:A; [|destruct a; discriminate|discriminate]. right. exists v, a.
      do 2 (split; [assumption|]). intros b ->. now apply keygen_exact.
    + intros [(N & _)|(v' & a & TF' & A & G)]; [apply first_none in N; congruence|].
      apply first_some in TF'. assert (v' = v) by congruence. subst v'. rewrite A. destruct a as [|b|]; try reflexivity.
      apply keygen_exact. now apply G.
  - pose proof (proj1 (first_none _ _) F) as N. split.
    + intro H. left. split; [exact N|]. now destruct must.
    + intros [(_ & ->)|(v' & a & TF' & _)]; [reflexivity|]. apply first_some in TF'. congruence.
Qed.
Lemma infos_exact : forall i, each_info i = Ok tt <-> forall n loc, In (n, loc) i -> 1 <= n <= 3 /\ loc = true.
Proof.
  induction i as [|(n, loc) i IH]; cbn [each_info].
  - split; [intros _ n loc []|reflexivity].
  - split.
    + intros H n' loc' I. apply bind_inv in H as ([] & H1 & H). apply guard_err_false in H1.
      apply bind_inv in H as ([] & H2 & H). apply guard_err_false in H2. apply bind_inv in H as ([] & H3 & H). apply guard_err_false in H3.
      destruct I as [I|I]; [|now apply (proj1 IH H)]. assert (n' = n /\ loc' = loc) as (-> & ->) by (split; congruence). split; [|exact H3].
      rewrite !orb_true_iff in H1. rewrite negb_true_iff in H2. apply Z.eqb_neq in H2.
      destruct H1 as [[[H1|H1]|H1]|H1]; apply Z.eqb_eq in H1; lia.
    + intro H. destruct (H n loc (or_introl eq_refl)) as (R & ->). assert (n = 1 \/ n = 2 \/ n = 3) as C by lia.
      assert (G : each_info i = Ok tt) by (apply IH; intros; apply H; now right). rewrite G. destruct C as [-> |[-> | ->]]; reflexivity.
Qed.
Lemma publication_exact : forall X l must, validate_publication X l must = Ok tt <-> publication_ok X l must.
Proof.
  intros X l must. unfold validate_publication, publication_ok. destruct (first_of _ l) as [v|] eqn:F.
  - pose proof (proj1 (first_some _ _ _) F) as TF. split.
    + intro H. destruct (x_publication X v) as [[p [|z y]]|] eqn:A; try discriminate. right. exists v, p. do 2 (split; [assumption|]).
      apply bind_inv in H as ([] & H1 & H). apply guard_err_false in H1. apply bind_inv in H as ([] & H2 & H). apply guard_err_false in H2.
      apply orb_true_iff in H1 as [H1|H1]; apply Z.eqb_eq in H1; rewrite H1 in *.
      * left. split; [reflexivity|]. now destruct (pi_infos p).
      * right. split; [reflexivity|]. intros i n loc E I. rewrite E in H. now apply (proj1 (infos_exact i) H).
    + intros [(N & _)|(v' & p & TF' & A & G)]; [apply first_none in N; congruence|].
      apply first_some in TF'. assert (v' = v) by congruence. subst v'. rewrite A. destruct G as [(-> & ->)|(-> & G)]; [reflexivity|].
      change ((1 =? 0) || (1 =? 1)) with true. change (1 =? 0) with false. cbn [andb negb guard bind]. destruct (pi_infos p) as [i|]; [|reflexivity].
      apply infos_exact. intros n loc I. now apply (G i).
  - pose proof (proj1 (first_none _ _) F) as N. split.
    + intro H. left. split; [exact N|]. now destruct must.
    + intros [(_ & ->)|(v' & a & TF' & _)]; [reflexivity|]. apply first_some in TF'. congruence.
Qed.

(** ** All controls *)

Definition kur_part (E : env) (kur : option (request * option cert)) : result unit :=
  match kur with
  | Some (m, ca) => if String.eqb (b_name m) "kur" then validate_kur_controls E m ca false else Ok tt
  | None => Ok tt
  end.
Lemma kur_part_exact : forall E kur, kur_part E kur = Ok tt <->
  (forall m ca q, kur = Some (m, ca) -> b_name m = "kur" -> nth_error (b_reqs m) 0 = Some q -> kur_controls E m q ca false) /\
  (forall m ca, kur = Some (m, ca) -> b_name m = "kur" -> b_reqs m <> []).
Proof.
  intros E [[m ca]|]; cbn [kur_part]; [|split; [intros _; split; intros; discriminate|reflexivity]].
  destruct (String.eqb (b_name m) "kur") eqn:B.
  - apply String.eqb_eq in B. assert (BB : bodied m) by (unfold bodied; rewrite B; cbn; auto).
    destruct (nth_error (b_reqs m) 0) as [q|] eqn:N.
    + rewrite (controls_exact E m q ca false BB N). split.
      * intro H. split; [|intros m' ca' E1 _ E2; assert (m' = m) by congruence; subst m'; rewrite E2 in N; discriminate].
        intros m' ca' q' E1 _ E2. assert (m' = m) by congruence. subst m'. assert (ca' = ca) by congruence. subst ca'.
        rewrite E2 in N. inversion N; subst. exact H.
      * intros (H & _). now apply H.
    + split.
      * intro H. unfold validate_kur_controls in H. apply bind_inv in H as (q & H1 & _). apply (get_req_ok _ _ _ BB) in H1. congruence.
      * intros (_ & H). exfalso. apply (H m ca eq_refl B). destruct (b_reqs m); [reflexivity|discriminate].
  - apply String.eqb_neq in B. split; [|reflexivity]. intros _. split; intros m' ca' *; intros E1 E2; exfalso; apply B; congruence.
Qed.
Lemma controls_all : forall E X c kur r used used',
  validate_controls E X c kur r used = (Ok tt, used') <-> controls_ok E X c kur r used used'.
Proof.
  intros E X c kur r used used'. unfold validate_controls, controls_ok. fold (kur_part E kur). destruct (r_controls r) as [l|]; [|split; [intro H; congruence|intros ->; reflexivity]].
  fold (expected_token c). fold (token_used c used).
  assert (EA : (match co_auth c with Some a => Some a | None => match co_extra c with Some (_, a) => a | None => None end end) = expected_auth c).
  { unfold expected_auth. destruct (co_auth c); [reflexivity|]. destruct (co_extra c) as [[? ?]|]; reflexivity. }
  rewrite EA.
  set (tok := match expected_token c with
              | None => Ok false
              | Some t => let! s := validate_text X token_type l (co_token_must c) (Some t) in
                  match s with None => Ok false | Some _ => let! _ := guard (negb (token_used c used)) EBadRequest in Ok true end
              end).
  assert (T : forall b, tok = Ok b <-> match expected_token c with
                | None => b = false
                | Some t => exists s, text_ok X token_type l (co_token_must c) (Some t) s /\
                    match s with None => b = false | Some _ => token_used c used = false /\ b = true end end).
  { intro b. unfold tok. destruct (expected_token c) as [t|]; [|split; intro H; congruence]. split.
    - intro H. apply bind_inv in H as (s & H1 & H). exists s. split; [now apply text_exact|]. destruct s; [|congruence].
      apply bind_inv in H as ([] & H2 & H). apply guard_err_false in H2. apply negb_true_iff in H2. split; [exact H2|congruence].
    - intros (s & H1 & H). rewrite (proj2 (text_exact _ _ _ _ _ _) H1). cbn [bind]. destruct s; [|congruence].
      destruct H as (-> & ->). reflexivity. }
  assert (P : forall b, (let! _ := kur_part E kur in let! _ := validate_archive E X l (co_archive c) (r_tmpl r) in
              let! _ := validate_publication X l (co_publication c) in tok) = Ok b <->
              kur_part E kur = Ok tt /\ validate_archive E X l (co_archive c) (r_tmpl r) = Ok tt /\
              validate_publication X l (co_publication c) = Ok tt /\ tok = Ok b).
  { intro b. split.
    - intro H. apply bind_inv in H as ([] & H1 & H). apply bind_inv in H as ([] & H2 & H). apply bind_inv in H as ([] & H3 & H). auto.
    - intros (H1 & H2 & H3 & H4). rewrite H1, H2, H3. exact H4. }
  split.
  - intro H. destruct (let! _ := kur_part E kur in _) as [b|e] eqn:PE; [|congruence]. destruct (proj1 (P b) eq_refl) as (H1 & H2 & H3 & H4).
    destruct (validate_text X auth_type l (co_auth_must c) (expected_auth c)) as [s|e] eqn:AU; [|cbn [bind] in H; congruence]. cbn [bind] in H.
    destruct (proj1 (kur_part_exact E kur) H1) as (K1 & K2). split; [exact K1|]. split; [exact K2|]. split; [now apply archive_exact|].
    split; [now apply publication_exact|]. split; [exists s; now apply text_exact|]. apply T in H4.
    assert (U : used' = match co_extra c with Some _ => used || b | None => used end) by congruence.
    destruct (expected_token c) as [t|]; [|subst b; rewrite orb_false_r in U; now destruct (co_extra c)].
    destruct H4 as (s' & TX & B). exists s'. split; [exact TX|]. destruct s'; [|subst b; rewrite orb_false_r in U; now destruct (co_extra c)].
    destruct B as (TU & ->). split; [exact TU|]. rewrite U. destruct (co_extra c); [now rewrite orb_true_r|reflexivity].
  - intros (K1 & K2 & A & Q & (s & AU) & TK).
    assert (exists b, tok = Ok b /\ used' = match co_extra c with Some _ => used || b | None => used end) as (b & TB & U).
    { destruct (expected_token c) as [t|] eqn:ET.
      - destruct TK as (s' & TX & B). destruct s' as [x|].
        + destruct B as (TU & U). exists true. split; [apply T; exists (Some x); auto|]. rewrite U. destruct (co_extra c); [now rewrite orb_true_r|reflexivity].
        + exists false. split; [apply T; exists None; auto|]. rewrite orb_false_r. now destruct (co_extra c).
      - exists false. split; [now apply T|]. rewrite orb_false_r. now destruct (co_extra c). }
    rewrite (proj2 (P b)). 2:{ split; [now apply kur_part_exact|]. split; [now apply archive_exact|]. split; [now apply publication_exact|exact TB]. }
    rewrite (proj2 (text_exact _ _ _ _ _ _) AU). cbn [bind]. now rewrite U.
Qed.
(** The mark is never taken back, and it is set by the right token only. *)
Lemma mark_kept : forall E X c kur r e u, validate_controls E X c kur r true = (e, u) -> u = true.
Proof.
  intros E X c kur r e u H. unfold validate_controls in H. destruct (r_controls r) as [l|]; [|congruence].
  destruct (let! _ := _ in _) as [b|x] in H; [|congruence]. destruct (co_extra c); cbn [orb] in H; congruence.
Qed.
Lemma mark_right : forall E X token auth kur r e, validate_controls E X (with_data token auth) kur r false = (e, true) -> right_token X token r.
Proof.
  intros E X token auth kur r e H. unfold validate_controls in H. destruct (r_controls r) as [l|] eqn:R; [|congruence].
  destruct (let! _ := _ in _) as [b|x] eqn:P in H; [|congruence]. cbn [with_data co_extra orb] in H. assert (b = true) by congruence. subst b.
  apply bind_inv in P as ([] & _ & P). apply bind_inv in P as ([] & _ & P). apply bind_inv in P as ([] & _ & P).
  cbn [with_data co_extra co_token_must] in P. apply bind_inv in P as ([s|] & T & P); [|discriminate]. apply text_exact in T.
  destruct T as [(_ & _ & T)|(v & t & F & _ & T & [EX|EX] & _)]; [discriminate|discriminate|]. exists l, v. split; [exact R|]. split; [exact F|congruence].
Qed.
(** With the data of the handler, a request with a token passes only before the token was used, and with the right one. *)
Lemma token_pass : forall E X token auth kur r used u, has_token r = true ->
  validate_controls E X (with_data token auth) kur r used = (Ok tt, u) -> used = false /\ u = true /\ right_token X token r.
Proof.
  intros E X token auth kur r used u HT H. apply controls_all in H. unfold controls_ok in H. unfold has_token in HT.
  destruct (r_controls r) as [l|] eqn:R; [|discriminate]. destruct H as (_ & _ & _ & _ & _ & H). cbn in H. destruct H as (s & T & U).
  destruct T as [(N & _)|(v & t & F & _ & T & EX & ->)].
  - apply existsb_exists in HT as (c & I & C). apply String.eqb_eq in C. destruct (N c I C).
  - destruct U as (U1 & U2). unfold token_used in U1. cbn in U1. split; [exact U1|]. split; [exact U2|].
    exists l, v. split; [exact R|]. split; [exact F|]. destruct EX; congruence.
Qed.
Lemma no_token_pass : forall E X token auth kur r used u, has_token r = false ->
  validate_controls E X (with_data token auth) kur r used = (Ok tt, u) -> u = used.
Proof.
  intros E X token auth kur r used u HT H. apply controls_all in H. unfold controls_ok in H. unfold has_token in HT.
  destruct (r_controls r) as [l|] eqn:R; [|exact H]. destruct H as (_ & _ & _ & _ & _ & H). cbn in H. destruct H as (s & T & U).
  destruct T as [(_ & _ & ->)|(v & t & F & _)]; [exact U|]. exfalso. destruct F as (l1 & c & l2 & -> & TY & _).
  assert (X1 : existsb (fun c => String.eqb (ct_type c) token_type) (l1 ++ c :: l2)%list = true); [|congruence].
  apply existsb_exists. exists c. split; [apply in_or_app; right; now left|now apply String.eqb_eq].
Qed.

(** ** Requests *)

Lemma before_inv : forall E m i o q alt, before_controls E m i o = Ok (q, alt) -> bodied m /\ nth_error (b_reqs m) i = Some q.
Proof.
  intros E m i o q alt H. unfold before_controls in H. apply bind_inv in H as (q' & H1 & H). apply bind_inv in H as (x & _ & H).
  apply bind_inv in H as (y & _ & H). apply bind_inv in H as (z & _ & H). assert (q' = q) by congruence. subst q'. now apply get_req_inv in H1.
Qed.
Lemma one_stateless : forall E X c m i o used,
  fst (process_one_st E X c m i o used) =
  process_one (with_controls E (fun _ r => fst (validate_controls E X c None r used))) m i o.
Proof.
  intros E X c m i o used. unfold process_one_st, process_one, before_controls.
  change (req_key (with_controls E (fun _ r => fst (validate_controls E X c None r used)))) with (req_key E).
  change (is_for_kga (with_controls E (fun _ r => fst (validate_controls E X c None r used)))) with (is_for_kga E).
  change (reg_info (with_controls E (fun _ r => fst (validate_controls E X c None r used)))) with (reg_info E).
  change (validate_template (with_controls E (fun _ r => fst (validate_controls E X c None r used)))) with (validate_template E).
  change (verify_popo (with_controls E (fun _ r => fst (validate_controls E X c None r used)))) with (verify_popo E).
  change (respond (with_controls E (fun _ r => fst (validate_controls E X c None r used)))) with (respond E).
  cbn [e_controls with_controls].
  destruct (get_req m i) as [q|e]; cbn [bind fst]; [|reflexivity].
  match goal with |- context [bind ?M _] => set (pre := M) end. destruct pre as [[]|e]; cbn [bind fst]; [|reflexivity].
  destruct (reg_info E q) as [alt|e]; cbn [bind fst]; [|reflexivity].
  destruct (validate_template E (r_tmpl (q_req q)) None (o_lw o)) as [[]|e]; cbn [bind fst]; [|reflexivity].
  destruct (validate_controls E X c None (q_req q) used) as [r u]. reflexivity.
Qed.
Lemma one_st_ok : forall E X c m i o used x u, process_one_st E X c m i o used = (Ok x, u) ->
  exists q, nth_error (b_reqs m) i = Some q /\ validate_controls E X c None (q_req q) used = (Ok tt, u).
Proof.
  intros E X c m i o used x u H. unfold process_one_st in H. destruct (before_controls E m i o) as [[q alt]|e] eqn:B; [|congruence].
  apply before_inv in B as (_ & N). exists q. split; [exact N|]. destruct (validate_controls E X c None (q_req q) used) as [[[]|e] u'].
  - cbn [bind] in H. congruence.
  - cbn [bind] in H. congruence.
Qed.
Definition tokens (l : list reqmsg) : list reqmsg := filter (fun q => has_token (q_req q)) l.
Lemma from_st_token : forall E X token auth m o l i used r u,
  (forall j, nth_error l j = nth_error (b_reqs m) (i + j)) ->
  process_from_st E X (with_data token auth) m o i l used = (Ok r, u) ->
  (used = true -> tokens l = [] /\ u = true) /\ (used = false -> (tokens l = [] /\ u = false) \/ (exists q, tokens l = [q] /\ u = true)) /\
  (forall q, In q (tokens l) -> right_token X token (q_req q)).
Proof.
  induction l as [|q l IH]; intros i used r u A H; cbn [process_from_st] in H.
  - assert (u = used) by congruence. subst u. cbn. split; [auto|]. split; [auto|]. intros q [].
  - destruct (process_one_st E X (with_data token auth) m i o used) as [[x|e] u1] eqn:P; [|congruence].
    destruct (process_from_st E X (with_data token auth) m o (S i) l u1) as [[y|e] u2] eqn:F; [|cbn [bind] in H; congruence].
    assert (u2 = u) by (cbn [bind] in H; congruence). subst u2.
    apply one_st_ok in P as (q' & N & V). specialize (A 0%nat) as A0. cbn [nth_error] in A0. rewrite Nat.add_0_r, N in A0. inversion A0; subst q'.
    assert (A' : forall j, nth_error l j = nth_error (b_reqs m) (S i + j)).
    { intro j. specialize (A (S j)). cbn [nth_error] in A. rewrite A. f_equal. lia. }
    destruct (IH (S i) u1 y u A' F) as (I1 & I2 & I3). unfold tokens. cbn [filter]. fold (tokens l).
    destruct (has_token (q_req q)) eqn:HT.
    + destruct (token_pass _ _ _ _ _ _ _ _ HT V) as (-> & -> & R). destruct (I1 eq_refl) as (-> & ->).
      split; [discriminate|]. split; [intros _; right; now exists q|]. intros q' [<-|[]]. exact R.
    + apply no_token_pass in V; [|exact HT]. subst u1. auto.
Qed.
Lemma st_keeps : forall E X c m o l i r u, process_from_st E X c m o i l true = (r, u) -> u = true.
Proof.
  induction l as [|q l IH]; intros i r u H; cbn [process_from_st] in H; [congruence|].
  destruct (process_one_st E X c m i o true) as [x u1] eqn:P. assert (u1 = true).
  { unfold process_one_st in P. destruct (before_controls E m i o) as [[q' alt]|e]; [|congruence].
    destruct (validate_controls E X c None (q_req q') true) as [e u'] eqn:V. apply mark_kept in V. congruence. }
  subst u1. destruct x as [x|e]; [|congruence]. destruct (process_from_st E X c m o (S i) l true) as [y u'] eqn:F. apply IH in F. congruence.
Qed.
Lemma serve_keeps : forall E X token auth m o r u, serve_st E X token auth m o true = (r, u) -> u = true.
Proof.
  intros E X token auth m o r u H. unfold serve_st in H. destruct (validate_ids m); [|congruence].
  destruct (String.eqb (b_name m) "ir").
  { destruct (if o_lw o then _ else _); [|congruence]. now apply st_keeps in H. }
  destruct (String.eqb (b_name m) "cr"); [now apply st_keeps in H|].
  destruct (String.eqb (b_name m) "kur"); [|congruence]. destruct (b_certs m); [congruence|].
  destruct (if o_lw o then _ else _); [|congruence]. now apply st_keeps in H.
Qed.
Lemma serve_token : forall E X token auth m o used r u, serve_st E X token auth m o used = (Ok r, u) -> b_name m <> "cr" ->
  (used = true -> tokens (b_reqs m) = [] /\ u = true) /\
  (used = false -> (tokens (b_reqs m) = [] /\ u = false) \/ (exists q, tokens (b_reqs m) = [q] /\ u = true)) /\
  (forall q, In q (tokens (b_reqs m)) -> right_token X token (q_req q)).
Proof.
  intros E X token auth m o used r u H NC. unfold serve_st in H. destruct (validate_ids m); [|congruence].
  destruct (String.eqb (b_name m) "ir").
  { destruct (if o_lw o then _ else _); [|congruence]. eapply from_st_token; [|exact H]. reflexivity. }
  destruct (String.eqb (b_name m) "cr") eqn:C; [apply String.eqb_eq in C; contradiction|].
  destruct (String.eqb (b_name m) "kur"); [|congruence]. destruct (b_certs m); [congruence|].
  destruct (if o_lw o then _ else _); [|congruence]. eapply from_st_token; [|exact H]. reflexivity.
Qed.
(** The mark after a cr is that before. *)
Lemma from_st_none : forall E X m o l i used r u, process_from_st E X without_data m o i l used = (r, u) -> u = used.
Proof.
  induction l as [|q l IH]; intros i used r u H; cbn [process_from_st] in H; [congruence|].
  destruct (process_one_st E X without_data m i o used) as [x u1] eqn:P. assert (u1 = used).
  { unfold process_one_st in P. destruct (before_controls E m i o) as [[q' alt]|e]; [|congruence].
    destruct (validate_controls E X without_data None (q_req q') used) as [e u'] eqn:V. unfold validate_controls in V.
    destruct (r_controls (q_req q')); [|congruence]. destruct (let! _ := _ in _) as [b|x'] in V; cbn in V; congruence. }
  subst u1. destruct x as [x|e]; [|congruence]. destruct (process_from_st E X without_data m o (S i) l used) as [y u'] eqn:F. apply IH in F. congruence.
Qed.
Lemma history_once : forall E X token auth l used a u, history E X token auth l used = (a, u) ->
  (used = true -> with_token a = []) /\ (length (with_token a) <= 1)%nat /\ (forall q, In q (with_token a) -> right_token X token (q_req q)).
Proof.
  induction l as [|(m, o) l IH]; intros used a u H; cbn [history] in H.
  - assert (a = []) by congruence. subst a. cbn. split; [auto|]. split; [lia|]. intros q [].
  - destruct (serve_st E X token auth m o used) as [r u1] eqn:S1. destruct (history E X token auth l u1) as [rest u2] eqn:H1.
    assert (a = (m, r) :: rest) by congruence. subst a. destruct (IH _ _ _ H1) as (I1 & I2 & I3).
    unfold with_token. cbn [List.map List.concat fst snd]. fold (with_token rest).
    destruct r as [y|e].
    + destruct (String.eqb (b_name m) "cr") eqn:C.
      * cbn [app]. split; [|split; [exact I2|exact I3]]. intros ->. apply serve_keeps in S1. now apply I1.
      * apply String.eqb_neq in C. destruct (serve_token _ _ _ _ _ _ _ _ _ S1 C) as (T1 & T2 & T3). fold (tokens (b_reqs m)).
        split; [intros ->; destruct (T1 eq_refl) as (-> & ->); now rewrite (I1 eq_refl)|]. split.
        -- destruct used; [destruct (T1 eq_refl) as (-> & _); exact I2|]. destruct (T2 eq_refl) as [(-> & _)|(q & -> & ->)]; [exact I2|].
           rewrite (I1 eq_refl). cbn. lia.
        -- intros q I. apply in_app_or in I as [I|I]; [now apply T3|now apply I3].
    + cbn [app]. split; [|split; [exact I2|exact I3]]. intros ->. apply serve_keeps in S1. now apply I1.
Qed.

(** ** Every certificate of a history *)

Lemma entitled_with : forall E f m o w q c, entitled (with_controls E f) m o w q c -> entitled E m o w q c.
Proof.
  intros E f m o w q c H. destruct H as [C|t Q RA K|t k a v Q A Sg K|M|D|k Q A K WR|k n Q A K WR].
  - now apply EN_central.
  - now apply EN_ra.
  - now apply (EN_signed E m o w q t k a v).
  - now apply EN_mac.
  - now apply EN_disclosed.
  - now apply EN_encipher.
  - now apply (EN_agree E m o w q k n).
Qed.
Lemma from_st_each : forall E X c m o l i used r u, process_from_st E X c m o i l used = (Ok r, u) ->
  List.map fst r = List.map (fun q => r_id (q_req q)) l /\
  forall j x, nth_error r j = Some x -> exists u1 u2, process_one_st E X c m (i + j) o u1 = (Ok (snd x), u2).
Proof.
  induction l as [|q l IH]; intros i used r u H; cbn [process_from_st] in H.
  - assert (r = []) by congruence. subst r. split; [reflexivity|]. intros [|j] x N; discriminate.
  - destruct (process_one_st E X c m i o used) as [[x|e] u1] eqn:P; [|congruence].
    destruct (process_from_st E X c m o (S i) l u1) as [[y|e] u2] eqn:F; [|cbn [bind] in H; congruence]. cbn [bind] in H.
    assert (r = (r_id (q_req q), x) :: y) by congruence. subst r. destruct (IH _ _ _ _ F) as (I1 & I2). split; [cbn; now rewrite I1|].
    intros [|j] z N; cbn [nth_error] in N.
    + inversion N; subst z. rewrite Nat.add_0_r. cbn [snd]. eauto.
    + replace (i + S j)%nat with (S i + j)%nat by lia. now apply I2.
Qed.
Lemma one_st_entitled : forall E X c m i o used q w x u, keys_known E -> In (b_name m) own_bodies ->
  nth_error (b_reqs m) i = Some q -> nth_error (b_reqs m) 0 = Some w -> process_one_st E X c m i o used = (Ok x, u) -> entitled E m o w q x.
Proof.
  intros E X c m i o used q w x u W B N N0 H. apply (f_equal fst) in H. rewrite one_stateless in H. cbn [fst] in H.
  eapply entitled_with. eapply sound_first; [|exact B|exact N|exact N0|exact H]. exact W.
Qed.
Lemma map_len : forall (r : list (Z * issued)) (l : list reqmsg), List.map fst r = List.map (fun q => r_id (q_req q)) l -> length r = length l.
Proof. intros r l H. apply (f_equal (@List.length Z)) in H. now rewrite !map_length in H. Qed.
Lemma serve_st_entitled : forall E X token auth m o used r u, keys_known E -> serve_st E X token auth m o used = (Ok r, u) ->
  List.map fst r = ids m /\ forall j x, nth_error r j = Some x ->
    exists q w, nth_error (b_reqs m) j = Some q /\ nth_error (b_reqs m) 0 = Some w /\ entitled E m (options_of m o) w q (snd x).
Proof.
  intros E X token auth m o used r u W H. unfold serve_st in H. destruct (validate_ids m); [|congruence].
  assert (G : forall c o', In (b_name m) own_bodies -> process_from_st E X c m o' 0 (b_reqs m) used = (Ok r, u) ->
    List.map fst r = ids m /\ forall j x, nth_error r j = Some x ->
      exists q w, nth_error (b_reqs m) j = Some q /\ nth_error (b_reqs m) 0 = Some w /\ entitled E m o' w q (snd x)).
  { intros c o' B F. destruct (from_st_each _ _ _ _ _ _ _ _ _ _ F) as (F1 & F2). split; [exact F1|]. intros j x N.
    destruct (F2 j x N) as (u1 & u2 & P). cbn [Nat.add] in P. assert (J : (j < length (b_reqs m))%nat).
    { rewrite <- (map_len _ _ F1). apply nth_error_Some. congruence. }
    destruct (nth_error (b_reqs m) j) as [q|] eqn:Q; [|apply nth_error_None in Q; lia].
    destruct (first_exists _ _ _ Q) as (w & N0). exists q, w. split; [reflexivity|]. split; [exact N0|].
    exact (one_st_entitled _ _ _ _ _ _ _ _ _ _ _ W B Q N0 P). }
  destruct (String.eqb (b_name m) "ir") eqn:B1.
  { apply String.eqb_eq in B1. destruct (if o_lw o then _ else _); [|congruence].
    destruct (G (with_data token auth) o) as (G1 & G2); [rewrite B1; now left|exact H|]. split; [exact G1|]. unfold options_of. rewrite B1. exact G2. }
  destruct (String.eqb (b_name m) "cr") eqn:B2.
  { apply String.eqb_eq in B2. destruct (G _ _ ltac:(rewrite B2; right; now left) H) as (G1 & G2). split; [exact G1|]. unfold options_of. rewrite B2. exact G2. }
  destruct (String.eqb (b_name m) "kur") eqn:B3; [|congruence]. apply String.eqb_eq in B3. destruct (b_certs m) eqn:BC; [congruence|].
  destruct (if o_lw o then _ else _); [|congruence].
  destruct (G _ _ ltac:(rewrite B3; right; right; now left) H) as (G1 & G2). split; [exact G1|]. unfold options_of. rewrite B3. exact G2.
Qed.
Lemma history_entitled : forall E X token auth l used a u m r j x c, keys_known E -> history E X token auth l used = (a, u) ->
  In (m, Ok r) a -> nth_error r j = Some (x, c) ->
  exists o q w, In (m, o) l /\ nth_error (b_reqs m) j = Some q /\ nth_error (b_reqs m) 0 = Some w /\ r_id (q_req q) = x /\
    entitled E m (options_of m o) w q c.
Proof.
  induction l as [|(m', o) l IH]; intros used a u m r j x c W H I N; cbn [history] in H.
  - assert (a = []) by congruence. subst a. destruct I.
  - destruct (serve_st E X token auth m' o used) as [r' u1] eqn:S1. destruct (history E X token auth l u1) as [rest u2] eqn:H1.
    assert (a = (m', r') :: rest) by congruence. subst a. destruct I as [I|I].
    + assert (m' = m) by congruence. subst m'. assert (r' = Ok r) by congruence. subst r'.
      destruct (serve_st_entitled _ _ _ _ _ _ _ _ _ W S1) as (A & B). destruct (B _ _ N) as (q & w & Q & N0 & EN). exists o, q, w.
      split; [now left|]. do 2 (split; [assumption|]). split; [|exact EN].
      assert (M1 : nth_error (List.map fst r) j = Some x) by (rewrite nth_error_map, N; reflexivity). rewrite A in M1. unfold ids in M1.
      rewrite nth_error_map, Q in M1. cbn in M1. congruence.
    + destruct (IH _ _ _ _ _ _ _ _ W H1 I N) as (o' & q & w & I' & R). exists o', q, w. split; [now right|exact R].
Qed.
