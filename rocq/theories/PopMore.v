(** Proofs about certificate request processing: batches, key updates, cross-certification, PKCS #10. *)
From Coq Require Import String Ascii Lia Permutation.
From Verif Require Import Prelude PreludeFacts PyStr PyStrProofs CompLoadModel HdrModel ProtTab ProtModel ProtSpec ProtMac ProtSig ProtHybSpec ProtHybProofs PopModel PopSpec PopProofs PopIssue.
Open Scope string_scope.
Open Scope Z_scope.
Local Notation length := List.length.

Theorem sound_first : forall E m i o q w c, keys_known E -> In (b_name m) own_bodies ->
  nth_error (b_reqs m) i = Some q -> nth_error (b_reqs m) 0 = Some w -> process_one E m i o = Ok c -> entitled E m o w q c.
Proof.
  intros E m i o q w c W B N N0 H. destruct (proj1 (process_exact E m i o q w c W B N N0) H) as (alt & R & _ & _ & _ & _ & _ & A).
  exact (answers_entitled _ _ _ _ _ _ _ R A).
Qed.
(** A request without a proof gets at most a centrally generated key. *)
Theorem no_pop : forall E m i o q c, keys_known E -> In (b_name m) own_bodies -> nth_error (b_reqs m) i = Some q ->
  q_popo q = None -> process_one E m i o = Ok c ->
  c = ICentral (r_tmpl (q_req q)) /\ (forall d, t_key (r_tmpl (q_req q)) <> TKey d) /\
  (forall r d, alternative E q r -> t_key (r_tmpl r) <> TKey d).
Proof.
  intros E m i o q c W B N P H. destruct (first_exists _ _ _ N) as (w & N0).
  destruct (proj1 (process_exact E m i o q w c W B N N0) H) as (alt & R & _ & _ & _ & _ & _ & A).
  destruct A as [(C & K) Cw T CE|Q RA BD|k a v Q A F Sg BD|(k & own & ss & a & v & data & A & Q & _) _ _|k p D A [(Q & _)|(Q & _)] BD|k Q A K WR BD|k n own Q A K O WR BD];
    try congruence.
  split; [reflexivity|]. split.
  - intros d T'. destruct K as [K|(a & K & _)]; congruence.
  - intros r d AL. unfold registered in R. pose proof AL as (l & v & QI & F & _). rewrite QI in R.
    destruct R as ([(NE & _)|(r' & AL' & ->)] & _).
    + destruct F as (l1 & x & l2 & -> & TY & _). exfalso. apply (NE x); [apply in_or_app; right; now left|exact TY].
    + assert (r' = r).
      { destruct AL as (l0 & v0 & Q0 & F0 & _ & D0 & _), AL' as (l3 & v3 & Q3 & F3 & _ & D3 & _).
        assert (l3 = l0) by congruence. subst l3. apply first_some in F0, F3. assert (v3 = v0) by congruence. subst v3. congruence. }
      subst r'. exact (T d).
Qed.
(** Signature proofs of the first request, exactly. *)
Theorem sig_served : forall E m o q a v c, keys_known E -> In (b_name m) own_bodies -> nth_error (b_reqs m) 0 = Some q ->
  q_popo q = Some (PoSig a v) ->
  (process_one E m 0 o = Ok c <->
   exists alt k, registered E q alt /\ named (r_tmpl (q_req q)) /\ good_key E (o_lw o) (r_tmpl (q_req q)) /\
     e_controls E 0 (q_req q) = Ok tt /\ named (in_force q alt) /\ good_key E true (in_force q alt) /\
     asks_for E q k /\ fits (a_oid a) (k_kind k) /\ signed E q /\ buildable E (in_force q alt) /\ c = IPlain (in_force q alt)).
Proof.
  intros E m o q a v c W B N P. rewrite (process_exact E m 0 o q q c W B N N). split.
  - intros (alt & R & H1 & H2 & H3 & H4 & H5 & A). exists alt.
    destruct A as [(C & _) Cw T CE|Q RA BD|k a' v' Q A F Sg BD|(k & own & ss & a' & v' & data & A & Q & _) _ _|k p D A [(Q & _)|(Q & _)] BD|k Q A K WR BD|k n own Q A K O WR BD];
      try congruence.
    assert (a' = a) by congruence. subst a'. exists k. do 10 (split; [assumption|]). reflexivity.
  - intros (alt & k & R & H1 & H2 & H3 & H4 & H5 & A & F & Sg & BD & ->). exists alt. do 6 (split; [assumption|]).
    now apply (AN_signed _ _ _ _ _ _ k a v).
Qed.
(** RSASSA-PSS proofs are refused. *)
Theorem pss_refused : forall E m i o q a v, keys_known E -> nth_error (b_reqs m) i = Some q -> In (b_name m) own_bodies ->
  q_popo q = Some (PoSig a v) -> In (a_oid a) pss_oids -> is_ok (process_one E m i o) = false.
Proof.
  intros E m i o q a v W N B P I. destruct (process_one E m i o) as [c|] eqn:H; [|reflexivity]. exfalso.
  destruct (first_exists _ _ _ N) as (w & N0). destruct (proj1 (process_exact E m i o q w c W B N N0) H) as (alt & _ & _ & _ & _ & _ & _ & A).
  destruct A as [(C & _) Cw T CE|Q RA BD|k a' v' Q A F Sg BD|(k & own & ss & a' & v' & data & A & Q & _) _ _|k p D A [(Q & _)|(Q & _)] BD|k Q A K WR BD|k n own Q A K O WR BD];
    try congruence.
  assert (a' = a) by congruence. subst a'. exact (pss_never _ _ I F).
Qed.

(** ** Batches *)

Lemma process_from_ok : forall E m o l i r, process_from E m o i l = Ok r <->
  List.map fst r = List.map (fun q => r_id (q_req q)) l /\
  (forall j x, nth_error r j = Some x -> process_one E m (i + j) o = Ok (snd x)).
Proof.
  intros E m o l. induction l as [|q l IH]; intros i r; cbn [process_from List.map].
  - split.
    + intro H. inversion H; subst. split; [reflexivity|]. intros [|j] x HX; discriminate.
    + intros (H & _). destruct r; [reflexivity|discriminate].
  - split.
    + intro H. apply bind_inv in H as (c & H1 & H). apply bind_inv in H as (rest & H2 & H). inversion H; subst r.
      apply IH in H2 as (H2 & H3). cbn [List.map fst]. split; [now rewrite H2|]. intros [|j] x HX; cbn [nth_error] in HX.
      * inversion HX; subst x. now rewrite Nat.add_0_r.
      * rewrite <- Nat.add_succ_comm. now apply H3.
    + intros (H1 & H2). destruct r as [|[z c] r]; [discriminate|]. cbn [List.map fst] in H1. inversion H1; subst.
      pose proof (H2 0%nat (r_id (q_req q), c) eq_refl) as H0. rewrite Nat.add_0_r in H0. rewrite H0. cbn [bind snd].
      rewrite (proj2 (IH (S i) r)); [reflexivity|]. split; [assumption|]. intros j x HX. rewrite Nat.add_succ_comm. now apply H2.
Qed.
Theorem all_exact : forall E m o r, process_all E m o = Ok r <->
  List.map fst r = ids m /\ (forall j x, nth_error r j = Some x -> process_one E m j o = Ok (snd x)).
Proof. intros. unfold process_all. rewrite process_from_ok. reflexivity. Qed.
Lemma process_from_err : forall E m o l i e, process_from E m o i l = Err e <->
  exists j, (j < length l)%nat /\ process_one E m (i + j) o = Err e /\ (forall j', (j' < j)%nat -> is_ok (process_one E m (i + j') o) = true).
Proof.
  intros E m o l. induction l as [|q l IH]; intros i e; cbn [process_from length].
  - split; [discriminate|]. intros (j & H & _). lia.
  - destruct (process_one E m i o) as [c|x] eqn:P; cbn [bind].
    + destruct (process_from E m o (S i) l) as [r|y] eqn:PF; cbn [bind].
      * split; [discriminate|]. intros (j & H1 & H2 & H3). destruct j as [|j]; [rewrite Nat.add_0_r in H2; congruence|].
        assert (X : process_from E m o (S i) l = Err e).
        { apply IH. exists j. split; [lia|]. split; [now rewrite Nat.add_succ_comm|]. intros j' L. rewrite Nat.add_succ_comm. apply H3. lia. }
        congruence.
      * split.
        -- intro H. assert (X : process_from E m o (S i) l = Err e) by congruence. apply IH in X as (j & H1 & H2 & H3).
           exists (S j). split; [lia|]. split; [now rewrite <- Nat.add_succ_comm|]. intros [|j'] L.
           ++ rewrite Nat.add_0_r, P. reflexivity.
           ++ rewrite <- Nat.add_succ_comm. apply H3. lia.
        -- intros (j & H1 & H2 & H3). destruct j as [|j]; [rewrite Nat.add_0_r in H2; congruence|].
           rewrite <- PF. apply IH. exists j. split; [lia|]. split; [now rewrite Nat.add_succ_comm|]. intros j' L. rewrite Nat.add_succ_comm. apply H3. lia.
    + split.
      * intro H. exists 0%nat. split; [lia|]. split; [rewrite Nat.add_0_r; congruence|]. intros j' L. lia.
      * intros (j & H1 & H2 & H3). destruct j as [|j]; [rewrite Nat.add_0_r in H2; congruence|].
        specialize (H3 0%nat ltac:(lia)). rewrite Nat.add_0_r, P in H3. discriminate.
Qed.
Theorem all_fails : forall E m o e, process_all E m o = Err e <->
  exists j, (j < length (b_reqs m))%nat /\ process_one E m j o = Err e /\ (forall j', (j' < j)%nat -> is_ok (process_one E m j' o) = true).
Proof. intros. unfold process_all. rewrite process_from_err. reflexivity. Qed.

Lemma zmem_In : forall x l, zmem x l = true <-> In x l.
Proof.
  intros x l. unfold zmem. rewrite existsb_exists. split; [intros (y & I & H); apply Z.eqb_eq in H; now subst|].
  intro I. exists x. split; [exact I|apply Z.eqb_refl].
Qed.
Lemma no_dup_spec : forall l, no_dup l = true <-> NoDup l.
Proof.
  induction l as [|x r IH]; cbn [no_dup]; [split; [constructor|reflexivity]|]. rewrite andb_true_iff, IH, negb_true_iff. split.
  - intros (H1 & H2). constructor; [|exact H2]. intro I. apply zmem_In in I. congruence.
  - intro H. inversion H; subst. split; [|assumption]. destruct (zmem x r) eqn:M; [apply zmem_In in M; contradiction|reflexivity].
Qed.
Lemma numbers_nodup : forall n, NoDup (first_numbers n).
Proof. intro n. unfold first_numbers. apply FinFun.Injective_map_NoDup; [intros a b H; lia|apply seq_NoDup]. Qed.
Lemma numbers_length : forall n, length (first_numbers n) = n.
Proof. intro n. unfold first_numbers. now rewrite map_length, seq_length. Qed.
Theorem ids_exact : forall m, b_name m <> "p10cr" ->
  (validate_ids m = Ok tt <-> b_reqs m <> [] /\ Permutation (ids m) (first_numbers (length (b_reqs m)))).
Proof.
  intros m B. unfold validate_ids. rewrite (proj2 (String.eqb_neq _ _) B). unfold ids.
  destruct (b_reqs m) as [|q [|q' l]].
  - split; [discriminate|]. intros (H & _). congruence.
  - change (first_numbers (length [q])) with [0]. cbn [List.map]. split.
    + intro H. apply guard_err_false in H. apply Z.eqb_eq in H. split; [discriminate|]. rewrite H. constructor; constructor.
    + intros (_ & H). apply Permutation_length_1 in H. apply guard_err_false. now apply Z.eqb_eq.
  - set (L := q :: q' :: l). set (I := List.map (fun q => r_id (q_req q)) L).
    assert (LI : length I = length L) by (unfold I; apply map_length). split.
    + intro H. apply bind_inv in H as ([] & H1 & H). apply guard_err_false in H1, H. apply no_dup_spec in H1.
      split; [unfold L; discriminate|]. symmetry. apply NoDup_Permutation_bis; [apply numbers_nodup|rewrite numbers_length; lia|].
      intros x X. unfold first_numbers in X. apply in_map_iff in X as (n & <- & X).
      apply zmem_In. exact (proj1 (forallb_forall _ _) H _ X).
    + intros (_ & P). rewrite (proj2 (no_dup_spec I)).
      * cbn [guard bind]. apply guard_err_false. apply forallb_forall. intros n X. apply zmem_In.
        apply (Permutation_in _ (Permutation_sym P)). unfold first_numbers. now apply in_map.
      * exact (Permutation_NoDup (Permutation_sym P) (numbers_nodup _)).
Qed.

(** ** Key updates *)

Lemma lwcmp_single : forall m, In (b_name m) own_bodies ->
  (enforce_lwcmp m = Ok tt <-> exists q, b_reqs m = [q] /\ r_id (q_req q) = 0).
Proof.
  intros m B. unfold enforce_lwcmp. rewrite (own_in _ B).
  assert (P : String.eqb (b_name m) "p10cr" = false) by (cbn [own_bodies In] in B; enum B; reflexivity). rewrite P. split.
  - intro H. destruct (b_reqs m) as [|q [|q' l]]; try discriminate. apply guard_err_false in H. apply Z.eqb_eq in H. eauto.
  - intros (q & -> & H). apply guard_err_false. now apply Z.eqb_eq.
Qed.
Lemma each_old_exact : forall E c ca l, each_old E c ca l = Ok tt <-> names_old E c ca l.
Proof.
  intros E c ca l. unfold names_old. induction l as [|x r IH]; cbn [each_old].
  - split; [intros _ x []|reflexivity].
  - destruct (String.eqb (ct_type x) "id_regCtrl_oldCertID") eqn:T.
    + apply String.eqb_eq in T. unfold validate_old. split.
      * intro H. apply bind_inv in H as ([] & H1 & H2). destruct (e_old E (ct_val x)) as [[[iss ser] [|z t]]|] eqn:D; try discriminate.
        apply bind_inv in H1 as ([] & H3 & H4). apply guard_err_false in H3, H4. apply Z.eqb_eq in H4. subst ser.
        intros y [<-|I] Ty; [eauto|]. exact (proj1 IH H2 y I Ty).
      * intro H. destruct (H x (or_introl eq_refl) T) as (iss & D & IS). rewrite D, IS. cbn [guard bind]. rewrite Z.eqb_refl. cbn [guard bind].
        apply IH. intros y I. apply H. now right.
    + apply String.eqb_neq in T. cbn [bind]. rewrite IH. split.
      * intros H y [<-|I]; [contradiction|now apply H].
      * intros H y I. apply H. now right.
Qed.
Lemma controls_exact : forall E m q ca must, bodied m -> nth_error (b_reqs m) 0 = Some q ->
  (validate_kur_controls E m ca must = Ok tt <-> kur_controls E m q ca must).
Proof.
  intros E m q ca must B N. unfold validate_kur_controls, kur_controls. rewrite (proj2 (get_req_ok _ _ _ B) N). cbn [bind].
  destruct (r_controls (q_req q)) as [l|].
  - split.
    + intro H. right. destruct (b_certs m) as [|c rest]; [discriminate|]. apply bind_inv in H as (x & H1 & H2).
      apply each_old_exact in H2. exists l, c, rest, x. split; [reflexivity|]. split; [reflexivity|]. split; [|exact H2].
      destruct ca as [y|]; [left; congruence|]. right. split; [reflexivity|]. destruct rest as [|y z]; [discriminate|]. exists z. congruence.
    + intros [(H & _)|(l' & c & rest & x & H & C & X & NO)]; [discriminate|]. inversion H; subst l'. rewrite C.
      apply each_old_exact in NO. destruct X as [->|(-> & y & ->)]; cbn [bind]; exact NO.
  - split.
    + intro H. left. split; [reflexivity|]. now destruct must.
    + intros [(_ & ->)|(l & c & rest & x & H & _)]; [reflexivity|discriminate].
Qed.
Lemma kur_popo_exact : forall E m q, keys_known E -> bodied m -> nth_error (b_reqs m) 0 = Some q ->
  (validate_popo_kur E m = Ok tt <-> signed E q \/ central E q).
Proof.
  intros E m q W B N. unfold validate_popo_kur. rewrite (proj2 (get_req_ok _ _ _ B) N). cbn [bind].
  destruct (q_popo q) as [[|a v|p|p]|] eqn:Q.
  - split; [discriminate|]. intros [(k & a & v & data & _ & P & _)|(P & _)]; congruence.
  - rewrite (pop_sig_exact E m 0 q W B N). split; [auto|]. intros [H|(P & _)]; [exact H|congruence].
  - split; [discriminate|]. intros [(k & a & v & data & _ & P & _)|(P & _)]; congruence.
  - split; [discriminate|]. intros [(k & a & v & data & _ & P & _)|(P & _)]; congruence.
  - split.
    + intro H. apply bind_inv in H as (b & H1 & H2). apply guard_err_false in H2. subst b.
      apply (kga_true _ _ _ _ _ B N) in H1 as [(H1 & _)|(_ & H1)]; [discriminate|auto].
    + intros [(k & a & v & data & _ & P & _)|C]; [congruence|]. rewrite (proj2 (kga_true _ _ _ _ true B N)); [reflexivity|auto].
Qed.
Lemma fresh_exact : forall E m q, (let! p := tmpl_key E false (r_tmpl (q_req q)) in
            match p with
            | None => Ok tt
            | Some pk =>
                match b_certs m with
                | [] => Err EValueError
                | c :: _ =>
                    let! old := c_pub c in
                    guard (negb (match pk with Pub k => e_same E k old | PubDh => false end)) EBadCertTemplate
                end
            end) = Ok tt <-> fresh_key E m q.
Proof.
  intros E m q. unfold fresh_key. split.
  - intro H. apply bind_inv in H as ([p|] & H1 & H).
    + right. apply tmpl_key_some in H1 as (d & T & HL). destruct (b_certs m) as [|c rest]; [discriminate|].
      apply bind_inv in H as (old & H2 & H3). apply guard_err_false in H3. apply negb_true_iff in H3.
      exists d, p, c, rest, old. repeat split; auto. intros k ->. exact H3.
    + left. now apply (proj1 (tmpl_key_none _ _) H1).
  - intros [H|(d & p & c & rest & old & T & HL & C & PB & S)].
    + rewrite (proj2 (tmpl_key_none _ _) H). reflexivity.
    + rewrite (proj2 (tmpl_key_some _ false _ p)) by eauto. cbn [bind]. rewrite C, PB. cbn [bind].
      destruct p as [k|]; [rewrite (S k eq_refl)|]; reflexivity.
Qed.
Theorem kup_exact : forall E m must same r, keys_known E ->
  (build_kup E m must same = Ok r <->
   b_name m = "kur" /\ exists q, b_reqs m = [q] /\ r_id (q_req q) = 0 /\ (same = true \/ fresh_key E m q) /\
     kur_controls E m q None must /\
     ((signed E q /\ buildable E (r_tmpl (q_req q)) /\ r = [(0, IPlain (r_tmpl (q_req q)))]) \/
      (central E q /\ e_central E (r_tmpl (q_req q)) = Ok tt /\ r = [(0, ICentral (r_tmpl (q_req q)))]))).
Proof.
  intros E m must same r W. unfold build_kup. split.
  - intro H. apply bind_inv in H as ([] & H1 & H). apply guard_err_false in H1. apply String.eqb_eq in H1. split; [exact H1|].
    assert (B : In (b_name m) own_bodies) by (rewrite H1; cbn; auto). pose proof (own_bodied _ B) as BB.
    apply bind_inv in H as ([] & H2 & H). apply (lwcmp_single _ B) in H2 as (q & Q & ID).
    assert (N : nth_error (b_reqs m) 0 = Some q) by (rewrite Q; reflexivity).
    apply bind_inv in H as ([] & H3 & H). apply (kur_popo_exact E m q W BB N) in H3.
    apply bind_inv in H as (q' & H4 & H). apply (get_req_ok _ _ _ BB) in H4. assert (q' = q) by congruence. subst q'.
    apply bind_inv in H as ([] & H5 & H). apply bind_inv in H as ([] & H6 & H). apply (controls_exact E m q None must BB N) in H6.
    apply bind_inv in H as ([] & _ & H). apply bind_inv in H as (b & H7 & H).
    exists q. split; [exact Q|]. split; [exact ID|]. split; [destruct same; [now left|right; now apply fresh_exact]|].
    split; [exact H6|]. apply (kga_true _ _ _ _ _ BB N) in H7 as [(-> & P)|(-> & C)].
    + left. destruct H3 as [H3|(H3 & _)]; [|congruence]. apply bind_inv in H as (t & H8 & H). apply build_exact in H8 as (-> & BD).
      split; [exact H3|]. split; [exact BD|congruence].
    + right. apply bind_inv in H as ([] & H8 & H). split; [exact C|]. split; [exact H8|congruence].
  - intros (H1 & q & Q & ID & FR & KC & H). rewrite H1. cbn [String.eqb]. 
    assert (B : In (b_name m) own_bodies) by (rewrite H1; cbn; auto). pose proof (own_bodied _ B) as BB.
    assert (N : nth_error (b_reqs m) 0 = Some q) by (rewrite Q; reflexivity).
    change (String.eqb "kur" "kur") with true. cbn [guard bind].
    rewrite (proj2 (lwcmp_single _ B)); [|eauto]. cbn [bind].
    assert (PK : validate_popo_kur E m = Ok tt) by (apply (kur_popo_exact E m q W BB N); tauto). rewrite PK. cbn [bind].
    rewrite (proj2 (get_req_ok _ _ _ BB) N). cbn [bind].
    assert (FX : (if same then Ok tt else let! p := tmpl_key E false (r_tmpl (q_req q)) in
            match p with
            | None => Ok tt
            | Some pk =>
                match b_certs m with
                | [] => Err EValueError
                | c :: _ =>
                    let! old := c_pub c in
                    guard (negb (match pk with Pub k => e_same E k old | PubDh => false end)) EBadCertTemplate
                end
            end) = Ok tt) by (destruct same; [reflexivity|]; destruct FR as [FR|FR]; [discriminate|]; now apply fresh_exact).
    rewrite FX. cbn [bind]. rewrite (proj2 (controls_exact E m q None must BB N) KC). cbn [bind]. rewrite ID. cbn [Z.eqb guard bind].
    destruct H as [(Sg & BD & ->)|(C & CE & ->)].
    + rewrite (proj2 (kga_true _ _ _ _ false BB N)).
      * cbn [bind]. now rewrite (proj2 (build_exact E _ _) (conj eq_refl BD)).
      * left. split; [reflexivity|]. destruct Sg as (k & a & v & data & _ & P & _). congruence.
    + rewrite (proj2 (kga_true _ _ _ _ true BB N)); [|auto]. cbn [bind]. now rewrite CE.
Qed.

(** ** Cross-certification *)

Lemma complete_exact : forall t, validate_ccr_template t = Ok tt <-> complete t.
Proof.
  intro t. unfold validate_ccr_template, complete. split.
  - intro H. apply bind_inv in H as ([] & H1 & H). apply bind_inv in H as ([] & H2 & H). apply bind_inv in H as ([] & H3 & H).
    apply bind_inv in H as ([] & H4 & H). apply bind_inv in H as ([] & H5 & H). apply guard_err_false in H2, H3, H4, H5, H.
    split.
    + destruct (t_version t) as [v|]; [|discriminate]. apply guard_err_false in H1. apply negb_true_iff, Z.eqb_neq in H1. eauto.
    + split; [exact H2|]. split; [exact H3|]. split; [destruct (t_inull t), (t_ian t); cbn in H4; auto; discriminate|].
      split; [now apply named_spec|exact H].
  - intros ((v & -> & V) & H2 & H3 & H4 & H5 & H6). apply Z.eqb_neq in V. rewrite V, H2, H3. cbn [negb guard bind].
    assert (X : negb (t_inull t && negb (t_ian t)) = true) by (destruct H4 as [-> | ->]; [reflexivity|now destruct (t_inull t)]).
    rewrite X. cbn [guard bind]. rewrite (proj2 (named_spec _) H5). cbn [guard bind]. now rewrite H6.
Qed.
Theorem ccp_exact : forall E m r, keys_known E ->
  (build_ccp E m = Ok r <->
   b_name m = "ccr" /\ exists q t, b_reqs m = [q] /\ r_id (q_req q) = 0 /\ signed E q /\ complete (r_tmpl (q_req q)) /\
     cross_template (r_tmpl (q_req q)) t /\ buildable E t /\ r = [(0, IPlain t)]).
Proof.
  intros E m r W. unfold build_ccp. split.
  - intro H. apply bind_inv in H as ([] & H1 & H). apply guard_err_false in H1. apply String.eqb_eq in H1. split; [exact H1|].
    assert (BB : bodied m) by (unfold bodied; rewrite H1; cbn; auto).
    apply bind_inv in H as ([] & H2 & H). apply guard_err_false in H2. apply Nat.eqb_eq in H2.
    destruct (b_reqs m) as [|q [|q' l]] eqn:Q; try discriminate. clear H2.
    assert (N : nth_error (b_reqs m) 0 = Some q) by (rewrite Q; reflexivity).
    apply bind_inv in H as (c & H2 & H). unfold process_ccr in H2. rewrite (proj2 (get_req_ok _ _ _ BB) N) in H2. cbn [bind] in H2.
    apply bind_inv in H2 as (p & H3 & H2). apply bind_inv in H2 as ([] & H4 & H2). apply bind_inv in H2 as ([] & H5 & H2).
    apply bind_inv in H2 as ([] & H6 & H2). apply guard_err_false in H6. apply Z.eqb_eq in H6.
    apply bind_inv in H2 as ([] & H7 & H2). apply complete_exact in H7. apply bind_inv in H2 as (t & H8 & H2).
    apply bind_inv in H2 as (t' & H9 & H2). apply build_exact in H9 as (-> & BD).
    exists q, (ensure_basic_constraints t). split; [reflexivity|]. split; [exact H6|]. split.
    + destruct (q_popo q) as [[|a v|x|x]|]; try discriminate H5. now apply (pop_sig_exact E m 0 q W BB N).
    + split; [exact H7|]. split; [|split; [exact BD|congruence]]. unfold ensure_key_usage in H8. unfold cross_template.
      destruct (t_ku (r_tmpl (q_req q))) as [[l|]|].
      * apply bind_inv in H8 as ([] & H9 & H8). apply guard_err_false in H9. apply str_mem_In in H9.
        split; [congruence|]. right. eauto.
      * discriminate.
      * split; [congruence|]. now left.
  - intros (H1 & q & t & Q & ID & Sg & CM & (-> & KU) & BD & ->). rewrite H1. change (String.eqb "ccr" "ccr") with true. cbn [guard bind].
    assert (BB : bodied m) by (unfold bodied; rewrite H1; cbn; auto).
    assert (N : nth_error (b_reqs m) 0 = Some q) by (rewrite Q; reflexivity).
    rewrite Q. cbn [length Nat.eqb guard bind]. unfold process_ccr. rewrite (proj2 (get_req_ok _ _ _ BB) N). cbn [bind].
    pose proof Sg as (k & a & v & data & A & P & D & V).
    rewrite (proj2 (catch_ok _ _ _ _ _) (proj2 (req_key_asks _ _ _) A)). cbn [bind]. rewrite (valid_sign_kind _ _ _ _ _ V). cbn [guard bind].
    rewrite P, (proj2 (pop_sig_exact E m 0 q W BB N) Sg). cbn [bind]. rewrite ID. cbn [Z.eqb guard bind].
    rewrite (proj2 (complete_exact _) CM). cbn [bind]. unfold ensure_key_usage.
    destruct KU as [KU|(l & KU & I)]; rewrite KU in *; cbn [bind].
    + now rewrite (proj2 (build_exact E _ _) (conj eq_refl BD)).
    + rewrite (proj2 (str_mem_In _ _) I). cbn [guard bind]. now rewrite (proj2 (build_exact E _ _) (conj eq_refl BD)).
Qed.
(** The cross-certificate may sign certificates and holds basic constraints. *)
Theorem cross_usage : forall t t', cross_template t t' -> t_key t' = t_key t /\ t_null t' = t_null t /\ t_san t' = t_san t /\ t_rest t' = t_rest t /\
  (exists l, t_ku t' = Some (Some l) /\ In "keyCertSign" l) /\ (exists b, t_bc t' = Some b /\ (t_bc t = None -> b = true) /\ (forall x, t_bc t = Some x -> b = x)).
Proof.
  intros t t' (-> & KU). unfold ensure_basic_constraints.
  destruct KU as [KU|(l & KU & I)]; rewrite KU.
  - destruct (t_bc (set_ku t ["digitalSignature"; "keyCertSign"])) as [b|] eqn:BC; cbn [t_bc set_ku] in BC.
    + cbn [t_key t_null t_san t_rest t_ku t_bc set_ku]. do 4 (split; [reflexivity|]).
      split; [exists ["digitalSignature"; "keyCertSign"]; split; [reflexivity|right; now left]|].
      exists b. split; [exact BC|]. split; [congruence|]. intros; congruence.
    + cbn [t_key t_null t_san t_rest t_ku t_bc set_ku set_bc]. do 4 (split; [reflexivity|]).
      split; [exists ["digitalSignature"; "keyCertSign"]; split; [reflexivity|right; now left]|].
      exists true. split; [reflexivity|]. split; [reflexivity|]. intros; congruence.
  - destruct (t_bc t) as [b|] eqn:BC.
    + do 4 (split; [reflexivity|]). split; [exists l; auto|]. exists b. split; [exact BC|]. split; [congruence|]. intros; congruence.
    + cbn [t_key t_null t_san t_rest t_ku t_bc set_bc]. do 4 (split; [reflexivity|]). split; [exists l; auto|].
      exists true. split; [reflexivity|]. split; [reflexivity|]. intros; congruence.
Qed.

(** ** PKCS #10 *)

Theorem p10_exact : forall E m r, keys_known E ->
  (build_p10 E m = Ok r <->
   b_name m = "p10cr" /\ exists s, b_csr m = Some s /\ csr_signed E s /\ named (s_tmpl s) /\ buildable E (s_tmpl s) /\
     r = [(-1, IPlain (s_tmpl s))]).
Proof.
  intros E m r W. unfold build_p10. destruct (String.eqb (b_name m) "p10cr") eqn:B.
  - apply String.eqb_eq in B. destruct (b_csr m) as [s|].
    + split.
      * intro H. split; [exact B|]. exists s. split; [reflexivity|]. apply bind_inv in H as ([] & H1 & H).
        apply bind_inv in H as ([] & H2 & H). apply guard_err_false in H2. apply bind_inv in H as (t & H3 & H).
        apply build_exact in H3 as (-> & BD). split.
        -- unfold verify_csr in H1. unfold csr_signed. destruct (t_key (s_tmpl s)) as [| |d]; try discriminate.
           apply bind_inv in H1 as ([k|] & HL & H1); [|discriminate]. apply bind_inv in H1 as ([] & _ & H1). apply catch_ok in H1.
           exists d, k. split; [reflexivity|]. split; [exact HL|]. now apply (valid_exact _ _ _ _ _ (W _ _ HL)).
        -- split; [now apply named_spec|]. split; [exact BD|congruence].
      * intros (_ & s' & HS & (d & k & T & HL & V) & NM & BD & ->). inversion HS; subst s'. unfold verify_csr. rewrite T, HL. cbn [bind].
        rewrite (valid_sign_kind _ _ _ _ _ V). cbn [guard bind].
        rewrite (proj2 (catch_ok _ _ _ _ _) (proj2 (valid_exact _ _ _ _ _ (W _ _ HL)) V)). cbn [bind].
        rewrite (proj2 (named_spec _) NM). cbn [guard bind]. now rewrite (proj2 (build_exact E _ _) (conj eq_refl BD)).
    + split; [discriminate|]. intros (_ & s & H & _). discriminate.
  - apply String.eqb_neq in B. split; [discriminate|]. intros (H & _). contradiction.
Qed.

(** ** The server *)

Lemma all_vouched : forall E m o r x c, keys_known E -> In (b_name m) own_bodies -> process_all E m o = Ok r -> In (x, c) r ->
  exists w q, nth_error (b_reqs m) 0 = Some w /\ In q (b_reqs m) /\ r_id (q_req q) = x /\ entitled E m o w q c.
Proof.
  intros E m o r x c W B H I. apply all_exact in H as (H1 & H2). apply In_nth_error in I as (j & I). pose proof (H2 _ _ I) as P. cbn [snd] in P.
  assert (MJ : nth_error (List.map fst r) j = Some x) by (rewrite nth_error_map, I; reflexivity). rewrite H1 in MJ. unfold ids in MJ.
  rewrite nth_error_map in MJ. destruct (nth_error (b_reqs m) j) as [q|] eqn:N; [|discriminate]. cbn in MJ.
  destruct (first_exists _ _ _ N) as (w & N0). exists w, q. split; [exact N0|]. split; [exact (nth_error_In _ _ N)|].
  split; [congruence|]. exact (sound_first _ _ _ _ _ _ _ W B N N0 P).
Qed.
Theorem serve_vouched : forall E m o kem same r x c, keys_known E -> serve E m o kem same = Ok r -> In (x, c) r ->
  exists o', vouched E m o' x c /\ (b_name m = "kur" /\ kem = true \/ o_ra o' = o_ra o /\ o_chain o' = o_chain o).
Proof.
  intros E m o kem same r x c W H I. unfold serve in H. apply bind_inv in H as ([] & _ & H).
  destruct (String.eqb (b_name m) "ir") eqn:B1.
  { apply String.eqb_eq in B1. assert (B : In (b_name m) own_bodies) by (rewrite B1; cbn; auto). unfold build_ip in H.
    apply bind_inv in H as ([] & _ & H). destruct (all_vouched _ _ _ _ _ _ W B H I) as (w & q & N0 & Iq & X & T).
    exists o. split; [exact (VO_entitled _ _ _ _ w q c N0 Iq X T)|auto]. }
  destruct (String.eqb (b_name m) "cr") eqn:B2.
  { apply String.eqb_eq in B2. assert (B : In (b_name m) own_bodies) by (rewrite B2; cbn; auto).
    destruct (all_vouched _ _ _ _ _ _ W B H I) as (w & q & N0 & Iq & X & T).
    eexists. split; [exact (VO_entitled _ _ _ _ w q c N0 Iq X T)|]. right. split; reflexivity. }
  destruct (String.eqb (b_name m) "p10cr") eqn:B3.
  { apply (p10_exact _ _ _ W) in H as (_ & s & HS & CS & _ & _ & ->). destruct I as [I|[]]. inversion I; subst x c.
    exists o. split; [now apply (VO_csr _ _ _ _ s)|auto]. }
  destruct (String.eqb (b_name m) "kur") eqn:B4.
  { apply String.eqb_eq in B4. assert (B : In (b_name m) own_bodies) by (rewrite B4; cbn; auto). destruct kem.
    - apply bind_inv in H as ([] & _ & H). unfold build_ip in H. apply bind_inv in H as ([] & _ & H).
      destruct (all_vouched _ _ _ _ _ _ W B H I) as (w & q & N0 & Iq & X & T).
      eexists. split; [exact (VO_entitled _ _ _ _ w q c N0 Iq X T)|]. now left.
    - apply (kup_exact _ _ _ _ _ W) in H as (_ & q & Q & ID & _ & _ & H). exists o. split; [|auto].
      assert (N : nth_error (b_reqs m) 0 = Some q) by (rewrite Q; reflexivity).
      assert (Iq : In q (b_reqs m)) by (rewrite Q; now left).
      destruct H as [(Sg & BD & ->)|(C & CE & ->)]; destruct I as [I|[]]; inversion I; subst x c.
      + pose proof Sg as (k & a & v & data & A & P & _).
        exact (VO_entitled _ _ _ _ q q _ N Iq ID (EN_signed _ _ _ _ _ _ k a v P A Sg eq_refl)).
      + exact (VO_entitled _ _ _ _ q q _ N Iq ID (EN_central _ _ _ _ _ C)). }
  destruct (String.eqb (b_name m) "ccr") eqn:B5; [|discriminate].
  apply (ccp_exact _ _ _ W) in H as (_ & q & t & Q & ID & Sg & _ & CT & _ & ->). destruct I as [I|[]]. inversion I; subst x c.
  exists o. split; [|auto]. apply (VO_cross _ _ _ 0 q t Q ID Sg). exact (proj1 (cross_usage _ _ CT)).
Qed.
Theorem serve_single : forall E m o kem same r x c q, keys_known E -> serve E m o kem same = Ok r -> b_reqs m = [q] -> b_csr m = None -> In (x, c) r ->
  exists o', ((entitled E m o' q q c) \/ (exists t, signed E q /\ t_key t = t_key (r_tmpl (q_req q)) /\ c = IPlain t)) /\
    (b_name m = "kur" /\ kem = true \/ o_ra o' = o_ra o /\ o_chain o' = o_chain o).
Proof.
  intros E m o kem same r x c q W H Q CS I. destruct (serve_vouched _ _ _ _ _ _ _ _ W H I) as (o' & V & OO). exists o'. split; [|exact OO].
  destruct V as [w q' c N0 Iq X T|q' t Q' ID Sg K|s HS _].
  - rewrite Q in N0, Iq. cbn in N0. inversion N0; subst w. destruct Iq as [<-|[]]. now left.
  - rewrite Q in Q'. inversion Q'; subst q'. right. eauto.
  - congruence.
Qed.
(** The generic way refuses cross-certification requests whatever they contain. *)
Theorem ccr_refused : forall E m i o, b_name m = "ccr" -> verify_popo E m i o = Err EValueError /\ verify_sig_pop E m i = Err EKeyError.
Proof. intros E m i o B. unfold verify_popo, verify_sig_pop. rewrite B. split; reflexivity. Qed.
(** ** The profile at the server *)

Lemma ip_single : forall E m o r, o_lw o = true -> In (b_name m) own_bodies -> build_ip E m o = Ok r ->
  exists q c, b_reqs m = [q] /\ r_id (q_req q) = 0 /\ r = [(0, c)].
Proof.
  intros E m o r L B H. unfold build_ip in H. rewrite L in H. apply bind_inv in H as ([] & H1 & H). apply (proj1 (lwcmp_single m B)) in H1 as (q & Q & I).
  unfold process_all in H. rewrite Q in H. cbn [process_from] in H. apply bind_inv in H as (c & _ & H). cbn [bind] in H. exists q, c.
  split; [exact Q|]. split; [exact I|]. rewrite I in H. congruence.
Qed.
Lemma server_single : forall E m o kem same r, o_lw o = true -> b_name m = "ir" \/ b_name m = "kur" -> serve E m o kem same = Ok r ->
  exists q c, b_reqs m = [q] /\ r_id (q_req q) = 0 /\ r = [(0, c)].
Proof.
  intros E m o kem same r L B H. unfold serve in H. apply bind_inv in H as ([] & _ & H). destruct B as [B|B]; rewrite B in H.
  - apply (ip_single E m o r L) in H; [exact H|]. rewrite B. now left.
  - change (String.eqb "kur" "ir") with false in H. change (String.eqb "kur" "cr") with false in H. change (String.eqb "kur" "p10cr") with false in H.
    change (String.eqb "kur" "kur") with true in H. cbn iota in H. destruct kem.
    + apply bind_inv in H as ([] & _ & H). apply ip_single in H; [exact H|exact L|]. rewrite B. right. right. now left.
    + unfold build_kup in H. apply bind_inv in H as ([] & _ & H). apply bind_inv in H as ([] & H1 & H).
      apply (proj1 (lwcmp_single m ltac:(rewrite B; right; right; now left))) in H1 as (q & Q & I). exists q.
      apply bind_inv in H as ([] & _ & H). apply bind_inv in H as (q' & _ & H). apply bind_inv in H as ([] & _ & H). apply bind_inv in H as ([] & _ & H).
      apply bind_inv in H as ([] & _ & H). apply bind_inv in H as (kga & _ & H).
      destruct kga; apply bind_inv in H as (t & _ & H); eexists; (split; [exact Q|]); (split; [exact I|]); inversion H; reflexivity.
Qed.
