(** Proofs about chains of a migration and of Sun hybrid certificates. *)
From Coq Require Import String Lia.
From Verif Require Import Prelude ChamProofs CertChainModel MigModel MigSpec.
From Verif Require ProtMac.
Open Scope string_scope.
Open Scope Z_scope.
Open Scope list_scope.

Lemma beq_iff a b : bytes_eqb a b = true <-> a = b. Proof. apply bytes_eqb_iff. Qed.
Lemma self_iff c : self_issued c = true <-> own_issuer c. Proof. apply beq_iff. Qed.
Lemma guard_iff b e : guard b e = Ok tt <-> b = true. Proof. unfold guard. destruct b; split; congruence. Qed.
Lemma failure_iff e : signer_failure e = true <-> In e [EValueError; EUnicode; EInvalidSignature; EInvalidAltSignature; EBadSigAlgID].
Proof. split; [destruct e; cbn; intros H; try discriminate H; auto 8|]. cbn [In]. intros [<- | [<- | [<- | [<- | [<- | []]]]]]; reflexivity. Qed.
(** One step of the loop. *)
Lemma step L c x r : (signed L c x /\ own_issuer c /\ walk L c (x :: r) = Ok [])
  \/ (signed L c x /\ ~ own_issuer c /\ walk L c (x :: r) = (let! l := walk L x r in Ok (x :: l)))
  \/ (not_signed L c x /\ ~ signed L c x /\ walk L c (x :: r) = walk L c r)
  \/ (~ signed L c x /\ exists e, l_verify L x c = Err e /\ c_issuer c = c_subject x /\ signer_failure e = false /\ walk L c (x :: r) = Err e).
Proof.
  unfold signed, not_signed. cbn [walk]. unfold check_names. destruct (bytes_eqb (c_issuer c) (c_subject x)) eqn:N; cbn [negb].
  - apply beq_iff in N. destruct (l_verify L x c) as [[]|e] eqn:V.
    + destruct (self_issued c) eqn:S.
      * left. apply self_iff in S. auto.
      * right. left. split; [auto|]. split; [intros H; apply self_iff in H; congruence|reflexivity].
    + destruct (signer_failure e) eqn:F.
      * right. right. left. split; [right; exists e; split; [reflexivity|apply failure_iff, F]|]. split; [intros [_ H]; discriminate H|reflexivity].
      * do 3 right. split; [intros [_ H]; discriminate H|]. exists e. auto.
  - right. right. left. assert (c_issuer c <> c_subject x) by (intros H; apply beq_iff in H; congruence). split; [left; assumption|]. split; [intros [H' _]; contradiction|reflexivity].
Qed.
Lemma sub_weak l m : subseq l m -> forall x, In x l -> In x m.
Proof. induction 1; intros y I; [destruct I|destruct I as [<-|I]; [left; reflexivity|right; auto]|right; auto]. Qed.
Lemma walk_sound L pool : forall c l, walk L c pool = Ok l -> subseq l pool /\ linked (signed L) (c :: l) /\ (forall x, In x (removelast (c :: l)) -> ~ own_issuer x).
Proof.
  induction pool as [|x r IH]; intros c l H.
  - cbn in H. assert (l = []) as -> by congruence. split; [constructor|]. split; [exact I|intros y []].
  - destruct (step L c x r) as [(S & O & E)|[(S & O & E)|[(N & S & E)|(S & e & _ & _ & _ & E)]]]; rewrite E in H.
    + assert (l = []) as -> by congruence. split; [constructor|]. split; [exact I|intros y []].
    + apply ProtMac.bind_inv in H. destruct H as (m & M & H). assert (l = x :: m) as -> by congruence. destruct (IH x m M) as (A & B & C).
      split; [constructor; exact A|]. split; [split; assumption|]. intros y J. cbn [removelast] in J. destruct J as [<- | J]; [exact O|exact (C y J)].
    + destruct (IH c l H) as (A & B & C). split; [constructor; exact A|]. split; assumption.
    + discriminate H.
Qed.
Lemma walk_none L pool : forall c, walk L c pool = Ok [] -> own_issuer c \/ forall x, In x pool -> ~ signed L c x.
Proof.
  induction pool as [|x r IH]; intros c H; [right; intros x []|].
  destruct (step L c x r) as [(S & O & E)|[(S & O & E)|[(N & S & E)|(S & e & _ & _ & _ & E)]]]; rewrite E in H.
  - left. exact O.
  - destruct (walk L x r); discriminate H.
  - destruct (IH c H) as [O|A]; [left; exact O|right]. intros y [<- | I]; [exact S|exact (A y I)].
  - discriminate H.
Qed.
Lemma last_any (m : list cert) : forall y c d, last (y :: m) c = last (y :: m) d.
Proof. induction m as [|z m IH]; intros y c d; [reflexivity|]. exact (IH z c d). Qed.
Lemma last_cons (x : cert) m c : last (x :: m) c = last m x.
Proof. destruct m as [|y m]; [reflexivity|]. exact (last_any m y c x). Qed.
(** What follows the last certificate in the list did not sign it, unless it is its own issuer. *)
Lemma walk_stops L pool : forall c l, walk L c pool = Ok l ->
  exists p q, pool = p ++ q /\ subseq l p /\ (own_issuer (last l c) \/ forall x, In x q -> ~ signed L (last l c) x).
Proof.
  induction pool as [|x r IH]; intros c l H.
  - cbn in H. assert (l = []) as -> by congruence. exists [], []. split; [reflexivity|]. split; [constructor|]. right. intros x [].
  - destruct l as [|y l]; [exists [], (x :: r); split; [reflexivity|]; split; [constructor|]; exact (walk_none L _ c H)|].
    destruct (step L c x r) as [(S & O & E)|[(S & O & E)|[(N & S & E)|(S & e & _ & _ & _ & E)]]]; rewrite E in H.
    + discriminate H.
    + apply ProtMac.bind_inv in H. destruct H as (m & M & H). assert (y = x) by congruence. assert (l = m) by congruence. subst. destruct (IH x m M) as (p & q & -> & A & B).
      exists (x :: p), q. split; [reflexivity|]. split; [constructor; exact A|]. rewrite last_cons. exact B.
    + destruct (IH c (y :: l) H) as (p & q & -> & A & B). exists (x :: p), q. split; [reflexivity|]. split; [constructor; exact A|exact B].
    + discriminate H.
Qed.
(** A chain that is in the list in its order is found, if nothing else in the list signed its certificates. *)
Lemma walk_complete L pool : forall c l, subseq l pool -> linked (signed L) (c :: l) -> (forall x, In x (removelast (c :: l)) -> ~ own_issuer x) ->
  (forall x y, In x (c :: l) -> In y pool -> decided L x pool /\ (signed L x y -> x = last l c \/ exists p q, c :: l = p ++ x :: y :: q)) ->
  NoDup (c :: l) -> (own_issuer (last l c) \/ forall y, In y pool -> ~ signed L (last l c) y) -> walk L c pool = Ok l.
Proof.
  induction pool as [|x r IH]; intros c l S K O U D T.
  - inversion S; subst. reflexivity.
  - assert (forall c' l', (forall y z, In y (c' :: l') -> In z r -> In y (c :: l) /\ True) -> True) as _ by trivial.
    assert (forall z, In z (c :: l) -> decided L z r) as DR by (intros z I y J; apply (proj1 (U z x I (or_introl eq_refl))); right; exact J).
    destruct (step L c x r) as [(S1 & O1 & E)|[(S1 & O1 & E)|[(N & S1 & E)|(S1 & e & V & NM & F & E)]]]; rewrite E.
    + destruct l as [|y l]; [reflexivity|]. exfalso. exact (O c (or_introl eq_refl) O1).
    + destruct l as [|y l]; [exfalso; destruct T as [T|T]; [exact (O1 T)|exact (T x (or_introl eq_refl) S1)]|].
      assert (x = y) as ->.
      { destruct (proj2 (U c x (or_introl eq_refl) (or_introl eq_refl)) S1) as [A|(p & q & A)].
        - exfalso. inversion D; subst. apply H1. rewrite A. rewrite last_cons. destruct l as [|z l]; [left; reflexivity|].
          right. clear. revert z y. induction l as [|w l IH]; intros z y; [left; reflexivity|]. right. exact (IH w y).
        - destruct p as [|a p]; [injection A as A _; congruence|]. injection A as -> A. exfalso. inversion D; subst. apply H1. rewrite A. apply in_or_app. right. left. reflexivity. }
      assert (subseq l r) as SR.
      { inversion S; subst; [assumption|]. clear -H1. remember (y :: l) as m. revert y l Heqm. induction H1; intros y' l' E; [discriminate E|injection E as -> ->; constructor; assumption|].
        constructor. eapply IHsubseq. exact E. }
      rewrite (IH y l SR); [reflexivity|apply K|intros z I; apply O; right; exact I| |inversion D; assumption|].
      * intros z w I J. split; [apply DR; right; exact I|]. intros W. destruct (proj2 (U z w (or_intror I) (or_intror J)) W) as [A|(p & q & A)].
        -- left. rewrite A, last_cons. reflexivity.
        -- right. destruct p as [|a p]; [injection A as A _; exfalso; inversion D; subst; contradiction|]. injection A as _ A. exists p, q. exact A.
      * rewrite last_cons in T. destruct T as [T|T]; [left; exact T|right; intros z I; apply T; right; exact I].
    + apply IH; [|assumption|assumption| |assumption|].
      * inversion S; subst; [constructor| |assumption]. exfalso. apply S1. apply K.
      * intros z w I J. split; [apply DR, I|]. apply (U z w I (or_intror J)).
      * destruct T as [T|T]; [left; exact T|right; intros z I; apply T; right; exact I].
    + exfalso. destruct (proj1 (U c x (or_introl eq_refl) (or_introl eq_refl)) x (or_introl eq_refl)) as [X|[X|(e' & X & Y)]]; [contradiction|contradiction|].
      assert (e = e') by congruence. subst. apply failure_iff in Y. congruence.
Qed.
Lemma chain_iff L c pool allow ch : migration_chain L c pool allow = Ok ch <-> exists l, ch = c :: l /\ walk L c pool = Ok l /\ pool <> [] /\ (l = [] -> allow = true).
Proof.
  unfold migration_chain. split.
  - intros H. apply ProtMac.bind_inv in H. destruct H as ([] & G & H). apply guard_iff in G. apply ProtMac.bind_inv in H. destruct H as (l & W & H).
    apply ProtMac.bind_inv in H. destruct H as ([] & A & H). apply guard_iff in A. exists l. split; [congruence|]. split; [exact W|]. split; [intros ->; discriminate G|]. intros ->. exact A.
  - intros (l & -> & W & P & A). destruct pool; [contradiction|]. cbn [guard bind]. rewrite W. cbn [bind]. destruct l; [rewrite (A eq_refl)|]; reflexivity.
Qed.

(** ** Sun hybrid certificates *)

Lemma find_iff L c pool x : find_issuer L c pool = Ok x <->
  exists c4 p q, l_form4 L c = Ok c4 /\ pool = p ++ x :: q /\ c_issuer c4 = c_subject x /\ l_trad L c4 x = Ok tt
    /\ forall y, In y p -> c_issuer c4 <> c_subject y \/ exists e, l_trad L c4 y = Err e /\ (e = EInvalidSignature \/ e = EInvalidAltSignature).
Proof.
  unfold find_issuer. destruct (l_form4 L c) as [c4|] eqn:F; cbn [bind]; [|split; [discriminate|intros (c4 & _ & _ & H & _); discriminate H]].
  induction pool as [|z r IH]; cbn [find_trad].
  - split; [discriminate|]. intros (c5 & p & q & _ & H & _). destruct p; discriminate H.
  - unfold check_names. destruct (bytes_eqb (c_issuer c4) (c_subject z)) eqn:N; cbn [negb].
    + apply beq_iff in N. destruct (l_trad L c4 z) as [[]|e] eqn:V.
      * split.
        -- intros H. assert (z = x) by congruence. subst. exists c4, [], r. repeat split; try assumption. intros y [].
        -- intros (c5 & p & q & A & B & C & D & G). assert (c5 = c4) by congruence. subst. destruct p as [|y p]; injection B as -> ->; [reflexivity|].
           destruct (G y (or_introl eq_refl)) as [X|(e & X & _)]; [contradiction|congruence].
      * destruct (bad_signature e) eqn:B.
        -- rewrite IH. split; intros (c5 & p & q & A & E & C & D & G); assert (c5 = c4) by congruence; subst.
           ++ exists c4, (z :: p), q. repeat split; try assumption; try reflexivity. intros y [<- | I]; [|exact (G y I)].
              right. exists e. split; [exact V|]. destruct e; try discriminate B; auto.
           ++ destruct p as [|y p]; injection E as -> ->; [congruence|]. exists c4, p, q. repeat split; try assumption; try reflexivity. intros w I. apply G. right. exact I.
        -- split; [discriminate|]. intros (c5 & p & q & A & E & C & D & G). assert (c5 = c4) by congruence. subst. destruct p as [|y p]; injection E as -> ->; [congruence|].
           destruct (G y (or_introl eq_refl)) as [X|(e' & X & Y)]; [contradiction|]. assert (e = e') by congruence. subst. destruct Y as [-> | ->]; discriminate B.
    + assert (c_issuer c4 <> c_subject z) as M by (intros H; apply beq_iff in H; congruence). rewrite IH. split; intros (c5 & p & q & A & E & C & D & G); assert (c5 = c4) by congruence; subst.
      * exists c4, (z :: p), q. repeat split; try assumption; try reflexivity. intros y [<- | I]; [left; exact M|exact (G y I)].
      * destruct p as [|y p]; injection E as -> ->; [contradiction|]. exists c4, p, q. repeat split; try assumption; try reflexivity. intros w I. apply G. right. exact I.
Qed.
Lemma forms_in L pool : forall l, forms L pool = Ok l -> forall y, In y l <-> exists x, In x pool /\ l_form4 L x = Ok y.
Proof.
  induction pool as [|x r IH]; cbn [forms]; intros l H y.
  - assert (l = []) as -> by congruence. split; [intros []|intros (x & [] & _)].
  - destruct (l_form4 L x) as [z|e] eqn:F.
    + apply ProtMac.bind_inv in H. destruct H as (m & M & H). assert (l = z :: m) as -> by congruence. specialize (IH m M y). split.
      * intros [<- | I]; [exists x; split; [left; reflexivity|exact F]|]. apply IH in I. destruct I as (w & W & Q). exists w. split; [right; exact W|exact Q].
      * intros (w & [<- | W] & Q); [left; congruence|]. right. apply IH. exists w. split; assumption.
    + assert (forms L r = Ok l) as R by (destruct e; congruence). specialize (IH l R y). rewrite IH. split; intros (w & W & Q).
      * exists w. split; [right; exact W|exact Q].
      * destruct W as [<- | W]; [congruence|]. exists w. split; assumption.
Qed.
Lemma sun_iff L c pool ch : sun_chain L c pool = Ok ch <->
  exists l c4 f, pool = Some l /\ l_form4 L c = Ok c4 /\ forms L l = Ok f /\ build_chain_from_list (l_env L) c4 f false = Ok ch /\ forall x, ch <> [x].
Proof.
  unfold sun_chain. destruct pool as [l|]; [|split; [discriminate|intros (l & _ & _ & H & _); discriminate H]]. split.
  - intros H. apply ProtMac.bind_inv in H. destruct H as (c4 & F & H). apply ProtMac.bind_inv in H. destruct H as (f & G & H). apply ProtMac.bind_inv in H. destruct H as (ch' & B & H).
    apply ProtMac.bind_inv in H. destruct H as ([] & Q & H). apply guard_iff in Q. assert (ch' = ch) by congruence. subst. exists l, c4, f. repeat split; try assumption. intros x ->. discriminate Q.
  - intros (l' & c4 & f & E & F & G & B & N). assert (l' = l) by congruence. subst. rewrite F. cbn [bind]. rewrite G. cbn [bind]. rewrite B. cbn [bind].
    destruct ch as [|x [|y ch]]; [reflexivity|exfalso; exact (N x eq_refl)|reflexivity].
Qed.
(** Members of a chain that is built. *)
Lemma find_in E c pool i : find_signer E c pool = Ok (Some i) -> In i pool.
Proof.
  induction pool as [|x r IH]; cbn [find_signer]; [discriminate|]. intros H. apply ProtMac.bind_inv in H. destruct H as (b & _ & H).
  destruct b; [left; congruence|right; exact (IH H)].
Qed.
Lemma loop_in E n pool : forall c l, chain_loop E n pool c = Ok l -> forall x, In x l -> In x pool.
Proof.
  induction n as [|n IH]; cbn [chain_loop]; intros c l H x I; [assert (l = []) by congruence; subst; destruct I|].
  apply ProtMac.bind_inv in H. destruct H as (o & F & H). destruct o as [i|].
  - apply find_in in F. destruct (self_issued i).
    + assert (l = [i]) by congruence. subst. destruct I as [<- | []]. exact F.
    + apply ProtMac.bind_inv in H. destruct H as (m & M & H). assert (l = i :: m) by congruence. subst. destruct I as [<- | I]; [exact F|exact (IH i m M x I)].
  - destruct (self_issued c); [assert (l = []) by congruence; subst; destruct I|exact (IH c l H x I)].
Qed.
Lemma build_in E ee pool must ch : build_chain_from_list E ee pool must = Ok ch -> forall x, In x ch -> x = ee \/ In x pool.
Proof.
  unfold build_chain_from_list. intros H x I. apply ProtMac.bind_inv in H. destruct H as (b & _ & H). destruct b.
  - assert (ch = [ee]) by congruence. subst. destruct I as [<- | []]. left. reflexivity.
  - apply ProtMac.bind_inv in H. destruct H as (r & R & H). assert (ch = ee :: r) as -> by (destruct (negb _); [destruct must; congruence|congruence]).
    destruct I as [<- | I]; [left; reflexivity|right; exact (loop_in _ _ _ _ _ R x I)].
Qed.
