From Coq Require Import String.
From Verif Require Import Prelude CertChainModel CertChainSpec.

Lemma bytes_eqb_iff a b : bytes_eqb a b = true <-> a = b.
Proof.
  revert b; induction a as [|x a IH]; intros [|y b]; cbn; split; intros H; try congruence.
  - apply andb_prop in H. destruct H as [H1 H2]. apply Z.eqb_eq in H1. apply IH in H2. congruence.
  - injection H as -> ->. rewrite Z.eqb_refl. apply IH. reflexivity.
Qed.

Lemma self_issued_iff c : self_issued c = true <-> same_names c.
Proof. apply bytes_eqb_iff. Qed.

Lemma signer_true E c i : check_is_cert_signer E c i = Ok true <-> signed_by E c i.
Proof.
  unfold check_is_cert_signer, signed_by. destruct (bytes_eqb (c_issuer c) (c_subject i)) eqn:B; cbn [negb].
  - apply bytes_eqb_iff in B. destruct (e_load E i) as [[]|]; cbn [bind]; [|split; [discriminate|intros [_ [H _]]; discriminate]].
    destruct (e_hash E c) as [[]|]; cbn [bind]; [|split; [discriminate|intros [_ [_ [H _]]]; discriminate]].
    destruct (e_verify E i c) as [[]|e]; [split; auto|].
    destruct (signer_failure e); split; try discriminate; intros [_ [_ [_ H]]]; discriminate.
  - split; [discriminate|]. intros [H _]. apply bytes_eqb_iff in H. congruence.
Qed.

Lemma signer_false E c i : check_is_cert_signer E c i = Ok false -> ~ signed_by E c i.
Proof. intros H S. apply signer_true in S. congruence. Qed.

Lemma signer_checkable E c i : checkable E c i -> exists b, check_is_cert_signer E c i = Ok b.
Proof.
  unfold checkable, check_is_cert_signer. intros H.
  destruct (bytes_eqb (c_issuer c) (c_subject i)) eqn:B; cbn [negb]; [|eauto].
  apply bytes_eqb_iff in B. destruct (H B) as [L [Ha V]]. rewrite L, Ha. cbn [bind].
  destruct V as [V|[V|[V|V]]]; rewrite V; cbn; eauto.
Qed.

Lemma find_signer_some E c pool i : find_signer E c pool = Ok (Some i) -> first_issuer E pool c i.
Proof.
  induction pool as [|x pool IH]; cbn [find_signer]; [discriminate|].
  destruct (check_is_cert_signer E c x) as [[|]|e] eqn:S; cbn [bind]; try discriminate.
  - intros H. injection H as ->. split; [apply signer_true, S|]. exists [], pool. split; [reflexivity|]. intros j [].
  - intros H. destruct (IH H) as [A [b [a [-> B]]]]. split; [exact A|]. exists (x :: b), a.
    split; [reflexivity|]. intros j [<-|J]; [apply signer_false, S|auto].
Qed.

Lemma find_signer_none E c pool : find_signer E c pool = Ok None -> no_issuer E pool c.
Proof.
  unfold no_issuer. induction pool as [|x pool IH]; cbn [find_signer]; [intros _ i []|].
  destruct (check_is_cert_signer E c x) as [[|]|e] eqn:S; cbn [bind]; try discriminate.
  intros H i [<-|I]; [apply signer_false, S|apply IH; assumption].
Qed.

Lemma loop_none E k pool c : find_signer E c pool = Ok None -> chain_loop E k pool c = Ok [].
Proof.
  intros H. induction k as [|k IH]; cbn [chain_loop]; [reflexivity|].
  rewrite H. cbn [bind]. destruct (self_issued c); [reflexivity|exact IH].
Qed.

Lemma loop_spec E n pool : forall c r, chain_loop E n pool c = Ok r ->
  consecutive (first_issuer E pool) (c :: r) /\ (List.length r <= n)%nat /\
  (forall x, In x (removelast r) -> ~ same_names x) /\
  ((r <> [] /\ same_names (last r c)) \/ no_issuer E pool (last (c :: r) c) \/ List.length r = n).
Proof.
  induction n as [|n IH]; intros c r; cbn [chain_loop].
  - intros H. injection H as <-. cbn. repeat split; try tauto. lia.
  - destruct (find_signer E c pool) as [[i|]|e] eqn:F; cbn [bind]; try discriminate.
    + pose proof (find_signer_some _ _ _ _ F) as FI.
      destruct (self_issued i) eqn:SI.
      * intros H. injection H as <-. cbn. split; [split; [exact FI|exact I]|]. split; [lia|].
        split; [intros x []|]. left. split; [discriminate|apply self_issued_iff, SI].
      * destruct (chain_loop E n pool i) as [r'|] eqn:L; cbn [bind]; [|discriminate].
        intros H. injection H as <-. destruct (IH _ _ L) as [A [B [C D]]].
        split; [split; [exact FI|exact A]|]. split; [cbn [List.length]; lia|]. split.
        -- intros x. destruct r' as [|y r']; [intros []|]. intros [<-|X].
           ++ intros S. apply self_issued_iff in S. congruence.
           ++ apply C, X.
        -- destruct D as [[D1 D2]|[D|D]].
           ++ left. split; [discriminate|]. destruct r' as [|y r']; [congruence|].
              change (same_names (last (y :: r') c)). 
              replace (last (y :: r') c) with (last (y :: r') i); [exact D2|].
              clear. revert y. induction r' as [|z r' IH]; intros y; [reflexivity|]. exact (IH z).
           ++ right; left. change (no_issuer E pool (last (i :: r') c)).
              replace (last (i :: r') c) with (last (i :: r') i); [exact D|].
              clear. revert i. induction r' as [|z r' IH]; intros i; [reflexivity|].
              change (last (z :: r') i = last (z :: r') c). clear IH.
              revert z. induction r' as [|w r' IH]; intros z; [reflexivity|]. exact (IH w).
           ++ right; right. cbn. lia.
    + intros H. pose proof (find_signer_none _ _ _ F) as N.
      assert (r = []) as ->.
      { destruct (self_issued c); [congruence|]. rewrite (loop_none _ _ _ _ F) in H. congruence. }
      cbn. split; [exact I|]. split; [lia|]. split; [intros x []|]. right; left. exact N.
Qed.

Lemma first_issuer_in E pool c i : first_issuer E pool c i -> In i pool /\ signed_by E c i.
Proof. intros [S [b [a [-> _]]]]. split; [apply in_or_app; right; left; reflexivity|exact S]. Qed.

Lemma consecutive_incl E pool : forall l c, consecutive (first_issuer E pool) (c :: l) -> incl l pool.
Proof.
  induction l as [|x l IH]; intros c H; [intros y []|]. destruct H as [H1 H2].
  apply first_issuer_in in H1. intros y [<-|Y]; [tauto|]. exact (IH x H2 y Y).
Qed.

Lemma last_cons_default {A} (x : A) l d : last (x :: l) d = last l x.
Proof.
  revert x d. induction l as [|y l IH]; intros x d; [reflexivity|].
  change (last (y :: l) d = last (y :: l) x). rewrite !IH. reflexivity.
Qed.

Theorem build_chain_spec E ee pool must ch : build_chain_from_list E ee pool must = Ok ch ->
  exists rest, ch = ee :: rest /\
    consecutive (first_issuer E pool) ch /\
    (List.length rest <= List.length pool + 1)%nat /\
    (forall c, In c (removelast rest) -> ~ same_names c) /\
    (same_names (last rest ee) \/ no_issuer E pool (last rest ee) \/
     List.length rest = (List.length pool + 1)%nat) /\
    (must = true -> same_names (last rest ee)) /\
    (signed_by E ee ee -> rest = []).
Proof.
  unfold build_chain_from_list.
  destruct (check_is_cert_signer E ee ee) as [[|]|] eqn:S; cbn [bind]; try discriminate.
  - intros H. injection H as <-. apply signer_true in S. destruct S as [N S]. exists []. cbn.
    unfold same_names. repeat split; try tauto; try lia.
  - destruct (chain_loop E (List.length pool + 1) pool ee) as [r|] eqn:L; cbn [bind]; [|discriminate].
    intros H. destruct (loop_spec _ _ _ _ _ L) as [A [B [C D]]].
    rewrite last_cons_default in *.
    assert (ch = ee :: r /\ (must = true -> same_names (last r ee))) as [-> M].
    { destruct (self_issued (last r ee)) eqn:SI; cbn [negb] in H.
      - split; [congruence|]. intros _. apply self_issued_iff, SI.
      - destruct must; [discriminate|]. split; [congruence|discriminate]. }
    exists r. split; [reflexivity|]. split; [exact A|]. split; [exact B|]. split; [exact C|].
    split; [tauto|]. split; [exact M|]. intros X. apply signer_false in S. contradiction.
Qed.

Theorem build_chain_stops E ee pool must rest : build_chain_from_list E ee pool must = Ok (ee :: rest) ->
  NoDup rest -> same_names (last rest ee) \/ no_issuer E pool (last rest ee).
Proof.
  intros H N. destruct (build_chain_spec _ _ _ _ _ H) as [r [R [A [B [C [D _]]]]]].
  injection R as <-. destruct D as [D|[D|D]]; auto. exfalso.
  pose proof (NoDup_incl_length N (consecutive_incl _ _ _ _ A)). lia.
Qed.

(** Completeness *)

Lemma find_signer_only E c pool i :
  In i pool -> signed_by E c i -> (forall j, In j pool -> signed_by E c j -> j = i) ->
  (forall j, In j pool -> checkable E c j) -> find_signer E c pool = Ok (Some i).
Proof.
  induction pool as [|x pool IH]; intros I S O K; [destruct I|]. cbn [find_signer].
  destruct (signer_checkable E c x (K x (or_introl eq_refl))) as [[|] B]; rewrite B; cbn [bind].
  - f_equal. f_equal. apply O; [left; reflexivity|apply signer_true, B].
  - apply IH.
    + destruct I as [<-|I]; [|exact I]. apply signer_false in B. contradiction.
    + exact S.
    + intros j J. apply O. right; exact J.
    + intros j J. apply K. right; exact J.
Qed.

Lemma loop_complete E pool : forall rest c n,
  consecutive (only_issuer E pool) (c :: rest) -> (List.length rest <= n)%nat -> rest <> [] ->
  (forall x, In x (removelast rest) -> ~ same_names x) -> same_names (last rest c) ->
  (forall x j, In x (c :: removelast rest) -> In j pool -> checkable E x j) ->
  chain_loop E n pool c = Ok rest.
Proof.
  induction rest as [|i rest IH]; intros c n A L N NS LS K; [congruence|].
  destruct n as [|n]; [cbn in L; lia|]. cbn [chain_loop].
  destruct A as [[A1 [A2 A3]] A].
  rewrite (find_signer_only E c pool i A1 A2 A3) by (intros j J; apply K; [left; reflexivity|exact J]).
  cbn [bind]. destruct rest as [|y rest].
  - cbn [last] in LS. apply self_issued_iff in LS. rewrite LS. reflexivity.
  - destruct (self_issued i) eqn:SI.
    + exfalso. apply (NS i); [left; reflexivity|apply self_issued_iff, SI].
    + rewrite (IH i n).
      * reflexivity.
      * exact A.
      * cbn in *. lia.
      * discriminate.
      * intros x X. apply NS. right. exact X.
      * change (same_names (last (y :: rest) c)) in LS. rewrite last_cons_default in *. exact LS.
      * intros x j X J. apply K; [right; exact X|exact J].
Qed.

Theorem build_chain_complete E ee rest pool must :
  consecutive (only_issuer E pool) (ee :: rest) -> rest <> [] ->
  (List.length rest <= List.length pool + 1)%nat ->
  (forall x, In x (removelast rest) -> ~ same_names x) -> same_names (last rest ee) ->
  ~ signed_by E ee ee -> checkable E ee ee ->
  (forall x j, In x (ee :: removelast rest) -> In j pool -> checkable E x j) ->
  build_chain_from_list E ee pool must = Ok (ee :: rest).
Proof.
  intros A N L NS LS S C K. unfold build_chain_from_list.
  destruct (signer_checkable E ee ee C) as [[|] B]; rewrite B; cbn [bind].
  - apply signer_true in B. contradiction.
  - rewrite (loop_complete E pool rest ee (List.length pool + 1) A L N NS LS K). cbn [bind].
    rewrite last_cons_default. apply self_issued_iff in LS. rewrite LS. reflexivity.
Qed.

Lemma find_signer_total E c pool : (forall j, In j pool -> checkable E c j) ->
  exists o, find_signer E c pool = Ok o.
Proof.
  induction pool as [|x pool IH]; intros K; cbn [find_signer]; [eauto|].
  destruct (signer_checkable E c x (K x (or_introl eq_refl))) as [[|] B]; rewrite B; cbn [bind]; [eauto|].
  apply IH. intros j J. apply K. right; exact J.
Qed.

Lemma find_signer_in E c pool i : find_signer E c pool = Ok (Some i) -> In i pool.
Proof. intros H. apply find_signer_some in H. apply first_issuer_in in H. tauto. Qed.

Lemma loop_total E pool : forall n c, (forall x j, In x (c :: pool) -> In j pool -> checkable E x j) ->
  exists r, chain_loop E n pool c = Ok r.
Proof.
  induction n as [|n IH]; intros c K; cbn [chain_loop]; [eauto|].
  destruct (find_signer_total E c pool) as [[i|] F].
  { intros j J. apply K; [left; reflexivity|exact J]. }
  - rewrite F. cbn [bind]. destruct (self_issued i); [eauto|].
    destruct (IH i) as [r R].
    + intros x j [<-|X] J; apply K; auto; right; [exact (find_signer_in _ _ _ _ F)|exact X].
    + rewrite R. cbn. eauto.
  - rewrite F. cbn [bind]. destruct (self_issued c); [eauto|]. apply IH, K.
Qed.

Theorem build_chain_total E ee pool must :
  (forall c i, In c (ee :: pool) -> In i (ee :: pool) -> checkable E c i) ->
  (exists ch, build_chain_from_list E ee pool must = Ok ch) \/
  (must = true /\ build_chain_from_list E ee pool must = Err EValueError).
Proof.
  intros K. unfold build_chain_from_list.
  destruct (signer_checkable E ee ee (K ee ee (or_introl eq_refl) (or_introl eq_refl))) as [[|] B]; rewrite B; cbn [bind].
  - left. eauto.
  - destruct (loop_total E pool (List.length pool + 1) ee) as [r R].
    + intros x j X J. apply K; [exact X|right; exact J].
    + rewrite R. cbn [bind]. destruct (self_issued (last (ee :: r) ee)); cbn [negb]; [left; eauto|].
      destruct must; [right; auto|left; eauto].
Qed.

(** ** Positions *)

Lemma id_eqb_iff a b : id_eqb (cert_id a) (cert_id b) = true <-> same_id a b.
Proof.
  unfold id_eqb, cert_id, same_id. cbn [fst snd]. rewrite andb_true_iff, String.eqb_eq, Z.eqb_eq. reflexivity.
Qed.

Lemma index_from_iff c : forall extra k j,
  index_from k (cert_id c) extra = Some j <-> exists i, j = (k + i)%nat /\ at_position extra c i.
Proof.
  induction extra as [|x extra IH]; intros k j; cbn [index_from].
  - split; [discriminate|]. intros [i [_ [[x [H _]] _]]]. destruct i; discriminate.
  - destruct (id_eqb (cert_id x) (cert_id c)) eqn:B.
    + apply id_eqb_iff in B. split.
      * intros H. injection H as <-. exists O. split; [lia|]. split; [exists x; split; [reflexivity|exact B]|].
        intros i y Hi. lia.
      * intros [[|i] [-> [[y [H1 H2]] H3]]]; [f_equal; lia|]. exfalso.
        apply (H3 O x); [lia|reflexivity|exact B].
    + rewrite IH. split.
      * intros [i [-> [[y [H1 H2]] H3]]]. exists (S i). split; [lia|]. split; [exists y; split; assumption|].
        intros [|q] z Q Z; [|apply (H3 q z); [lia|exact Z]].
        injection Z as <-. intros S. apply id_eqb_iff in S. congruence.
      * intros [[|i] [-> [[y [H1 H2]] H3]]].
        -- injection H1 as <-. apply id_eqb_iff in H2. congruence.
        -- exists i. split; [lia|]. split; [exists y; split; assumption|].
           intros q z Q Z. apply (H3 (S q) z); [lia|exact Z].
Qed.

Lemma get_index_iff c extra k : get_cert_index c extra = Ok k <-> at_position extra c k.
Proof.
  unfold get_cert_index. destruct (index_from 0 (cert_id c) extra) as [j|] eqn:I.
  - split.
    + intros H. injection H as <-. apply index_from_iff in I. destruct I as [i [-> P]]. exact P.
    + intros P. f_equal. assert (index_from 0 (cert_id c) extra = Some k) as X by (apply index_from_iff; exists k; auto). congruence.
  - split; [discriminate|]. intros P.
    assert (index_from 0 (cert_id c) extra = Some k) as X by (apply index_from_iff; exists k; auto). congruence.
Qed.

Lemma position_unique extra c i j : at_position extra c i -> at_position extra c j -> i = j.
Proof. intros A B. apply get_index_iff in A. apply get_index_iff in B. congruence. Qed.

Lemma positions_exist extra l :
  forallb (fun c => is_ok (get_cert_index c extra)) l = true <-> exists ps, Forall2 (at_position extra) l ps.
Proof.
  induction l as [|c l IH]; cbn [forallb].
  - split; [exists []; constructor|reflexivity].
  - rewrite andb_true_iff, IH. split.
    + intros [A [ps B]]. destruct (get_cert_index c extra) as [k|] eqn:K; [|discriminate].
      apply get_index_iff in K. exists (k :: ps). constructor; assumption.
    + intros [ps B]. inversion B as [|c' k l' ps' P Q]; subst. apply get_index_iff in P. rewrite P. split; [reflexivity|eauto].
Qed.

Lemma order_loop_iff extra : forall rest ps last_index,
  Forall2 (at_position extra) rest ps ->
  (order_loop extra last_index rest = Ok true <->
   forall i p, nth_error ps i = Some p -> p = (last_index + i + 1)%nat \/ (p < last_index + i)%nat)
  /\ exists b, order_loop extra last_index rest = Ok b.
Proof.
  induction rest as [|c rest IH]; intros ps li F; inversion F as [|c' k l' ps' P Q]; subst; cbn [order_loop].
  - split; [|eauto]. split; [|reflexivity]. intros _ [|i] p H; discriminate.
  - apply get_index_iff in P. rewrite P. cbn [bind].
    destruct ((k =? li + 1)%nat || (k <? li)%nat) eqn:B; cbn [negb].
    + destruct (IH ps' (li + 1)%nat Q) as [I1 I2]. split; [|exact I2]. rewrite I1. split.
      * intros H [|i] p E.
        -- injection E as <-. apply orb_true_iff in B. rewrite Nat.eqb_eq, Nat.ltb_lt in B. lia.
        -- specialize (H i p E). lia.
      * intros H i p E. specialize (H (S i) p E). lia.
    + split; [|eauto]. split; [discriminate|]. intros H. specialize (H O k eq_refl).
      apply orb_false_iff in B. rewrite Nat.eqb_neq, Nat.ltb_ge in B. lia.
Qed.

Theorem ordered_iff extra chain :
  check_single_chain_is_ordered extra chain false = Ok true <->
  exists p ps, Forall2 (at_position extra) chain (p :: ps) /\
    forall i q, nth_error ps i = Some q -> q = (p + i + 1)%nat \/ (q < p + i)%nat.
Proof.
  unfold check_single_chain_is_ordered.
  destruct (forallb (fun c => is_ok (get_cert_index c extra)) chain) eqn:F; cbn [guard bind].
  - apply positions_exist in F. destruct F as [ps F]. destruct chain as [|c rest].
    + split; [discriminate|]. intros [p [q [X _]]]. inversion X.
    + inversion F as [|c' k l' ps' P Q]; subst. pose proof (proj2 (get_index_iff _ _ _) P) as G. rewrite G. cbn [bind].
      destruct (order_loop_iff extra rest ps' k Q) as [O _]. rewrite O. split.
      * intros H. exists k, ps'. split; [exact F|exact H].
      * intros [p [qs [X H]]]. inversion X as [|c' k2 l' ps2 P2 Q2]; subst.
        assert (p = k) as -> by (eapply position_unique; eassumption).
        assert (qs = ps') as ->; [|exact H].
        clear -Q Q2. revert ps' Q. induction Q2; intros ps' Q; inversion Q; subst; [reflexivity|].
        f_equal; [eapply position_unique; eassumption|auto].
  - split; [discriminate|]. intros [p [ps [X _]]].
    assert (forallb (fun c => is_ok (get_cert_index c extra)) chain = true) as Y by (apply positions_exist; eauto). congruence.
Qed.

Lemma follows_loop : forall ps p q,
  consecutive follows (q :: ps) -> (q = p \/ q + 2 <= p)%nat ->
  forall i r, nth_error ps i = Some r -> r = (p + i + 1)%nat \/ (r < p + i)%nat.
Proof.
  induction ps as [|x ps IH]; intros p q C L i r H; [destruct i; discriminate|].
  destruct C as [C1 C2]. unfold follows in C1. destruct i as [|i].
  - injection H as <-. lia.
  - specialize (IH (p + 1)%nat x C2). cbn [nth_error] in H. destruct (IH ltac:(lia) i r H); lia.
Qed.

Theorem ordered_accepted extra chain ps :
  chain <> [] -> Forall2 (at_position extra) chain ps -> consecutive follows ps ->
  check_single_chain_is_ordered extra chain false = Ok true.
Proof.
  intros N F C. apply ordered_iff. destruct F as [|c p rest ps P Q]; [congruence|].
  exists p, ps. split; [constructor; assumption|]. apply (follows_loop ps p p C). lia.
Qed.

Lemma Forall2_len {A B} (R : A -> B -> Prop) l l' : Forall2 R l l' -> List.length l = List.length l'.
Proof. induction 1; cbn; congruence. Qed.

Lemma list_ext {A} (l l' : list A) : (forall i, nth_error l i = nth_error l' i) -> l = l'.
Proof.
  revert l'. induction l as [|x l IH]; intros [|y l'] H; try reflexivity.
  - specialize (H O). discriminate.
  - specialize (H O). discriminate.
  - pose proof (H O) as E. injection E as ->. f_equal. apply IH. intros i. exact (H (S i)).
Qed.

(** Starting at position 0 with pairwise different positions the check is exact. *)
Theorem ordered_from_first extra chain ps :
  Forall2 (at_position extra) chain (O :: ps) -> NoDup (O :: ps) ->
  (check_single_chain_is_ordered extra chain false = Ok true <-> O :: ps = seq 0 (List.length chain)).
Proof.
  intros F N. rewrite ordered_iff. pose proof (Forall2_len _ _ _ F) as L. cbn [List.length] in L. rewrite L.
  cbn [seq]. split.
  - intros [p [qs [X H]]].
    assert (p :: qs = O :: ps) as E.
    { clear -F X. revert F X. generalize (O :: ps) (p :: qs). intros a b F. revert b.
      induction F; intros b X; inversion X; subst; [reflexivity|]. f_equal; [eapply position_unique; eassumption|auto]. }
    injection E as -> ->. f_equal.
    assert (forall i q, nth_error ps i = Some q -> q = S i) as Z.
    { intros i. induction i as [i IH] using lt_wf_ind. intros q Q. destruct (H i q Q) as [E|E]; [lia|]. exfalso.
      cbn in E. destruct q as [|q].
      - inversion N as [|? ? N1 _]; subst. apply N1. eapply nth_error_In, Q.
      - assert (q < i)%nat as Lt by lia.
        destruct (nth_error ps q) as [r|] eqn:R.
        + pose proof (IH q Lt r R) as ->. inversion N as [|? ? _ N2]; subst.
          assert (q = i); [|lia]. apply (proj1 (NoDup_nth_error ps) N2).
          * apply nth_error_Some. congruence.
          * congruence.
        + apply nth_error_None in R. assert (i < List.length ps)%nat by (apply nth_error_Some; congruence). lia. }
    apply list_ext. intros i. destruct (nth_error ps i) as [q|] eqn:Q.
    + rewrite (Z i q Q). symmetry. assert (i < List.length ps)%nat as Li by (apply nth_error_Some; congruence).
      rewrite (nth_error_nth' _ O) by (rewrite seq_length; exact Li). rewrite seq_nth by exact Li. f_equal; lia.
    + symmetry. apply nth_error_None. rewrite seq_length. apply nth_error_None, Q.
  - intros E. injection E as E. exists O, ps. split; [exact F|]. intros i q Q. rewrite E in Q. left.
    assert (i < List.length ps)%nat as Li.
    { assert (nth_error (seq 1 (List.length ps)) i <> None) as X by congruence. apply nth_error_Some in X. rewrite seq_length in X. exact X. }
    rewrite (nth_error_nth' _ O) in Q by (rewrite seq_length; exact Li). rewrite seq_nth in Q by exact Li. injection Q as <-. lia.
Qed.
