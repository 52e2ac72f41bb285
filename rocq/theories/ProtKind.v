(** Proofs about the kinds of protection (property C93). *)
From Coq Require Import String Ascii Lia.
From Verif Require Import Prelude PreludeFacts PyStr CompLoadModel HdrModel ProtTab ProtModel ProtSpec ProtMac ProtMacMsg ProtSig.
Open Scope string_scope.
Open Scope Z_scope.

Lemma table_dom : forall t l, forallb (fun x => str_mem x l) (List.map fst t) && forallb (fun x => has x t) l = true ->
  forall o, @has string o t = true <-> In o l.
Proof.
  intros t l H o. apply andb_prop in H as (A & B). split; intro I.
  - apply has_In in I. apply str_mem_In. exact (proj1 (forallb_forall _ _) A _ I).
  - exact (proj1 (forallb_forall _ _) B _ I).
Qed.
Lemma sym_dom : forall o, has o SYMMETRIC_PROT_ALGO = true <-> In o secret_oids.
Proof. apply table_dom. vm_compute. reflexivity. Qed.
Lemma trad_dom : forall o, has o TRAD_SIG_OID_2_NAME = true <-> In o trad_sigs.
Proof. apply table_dom. vm_compute. reflexivity. Qed.
Lemma pq_dom : forall o, has o PQ_SIG_OID_2_NAME = true <-> In o pq_sigs.
Proof. apply table_dom. vm_compute. reflexivity. Qed.
Lemma stf_dom : forall o, has o PQ_STATEFUL_OID_2_NAME = true <-> In o stateful_oids.
Proof. apply table_dom. vm_compute. reflexivity. Qed.
Lemma comp_dom : forall o, has o COMPOSITE_SIG_OID_TO_NAME = true <-> In o composites.
Proof. apply table_dom. vm_compute. reflexivity. Qed.
Lemma lwmac_dom : forall o, has o LWCMP_MAC_OID_2_NAME = true <-> In o ["id_PBMAC1"; "id_PasswordBasedMac"].
Proof. apply table_dom. vm_compute. reflexivity. Qed.
Lemma disjoint : forall l t, forallb (fun x => negb (@has string x t)) l = true -> forall o, In o l -> has o t = false.
Proof. intros l t H o I. apply negb_true_iff. exact (proj1 (forallb_forall _ _) H _ I). Qed.
Definition not_secret (o : oid) : bool :=
  negb (String.eqb o "id_KemBasedMac") && negb (String.eqb o "id_DHBasedMac").
Lemma not_secret_in : forall l, forallb not_secret l = true -> forall o, In o l ->
  String.eqb o "id_KemBasedMac" = false /\ String.eqb o "id_DHBasedMac" = false.
Proof.
  intros l H o I. pose proof (proj1 (forallb_forall _ _) H _ I) as C. apply andb_prop in C as (A & B).
  apply negb_true_iff in A, B. auto.
Qed.

Theorem type_exact : forall o t, get_protection_type o = Ok t <-> oid_kind o t.
Proof.
  intros o t. unfold get_protection_type. split.
  - destruct (String.eqb_spec o "id_KemBasedMac") as [->|N1]; [intro H; inversion H; constructor|].
    destruct (String.eqb_spec o "id_DHBasedMac") as [->|N2]; [intro H; inversion H; constructor|].
    destruct (has o SYMMETRIC_PROT_ALGO) eqn:E1.
    { intro H; inversion H. apply OK_mac. apply sym_dom in E1. destruct E1 as [E|[E|E]]; [congruence|congruence|exact E]. }
    destruct (has o TRAD_SIG_OID_2_NAME) eqn:E2; [intro H; inversion H; apply OK_sig; now apply trad_dom|].
    destruct (has o PQ_STATEFUL_OID_2_NAME) eqn:E3; [intro H; inversion H; apply OK_stateful; now apply stf_dom|].
    destruct (has o PQ_SIG_OID_2_NAME) eqn:E4; [intro H; inversion H; apply OK_pq; now apply pq_dom|].
    destruct (has o COMPOSITE_SIG_OID_TO_NAME) eqn:E5; [intro H; inversion H; apply OK_comp; now apply comp_dom|discriminate].
  - intro H. destruct H as [| |o I|o I|o I|o I|o I]; try reflexivity.
    + destruct (not_secret_in mac_oids ltac:(vm_compute; reflexivity) _ I) as (-> & ->).
      rewrite (proj2 (sym_dom o)); [reflexivity|]. right; right; exact I.
    + destruct (not_secret_in trad_sigs ltac:(vm_compute; reflexivity) _ I) as (-> & ->).
      rewrite (disjoint trad_sigs SYMMETRIC_PROT_ALGO ltac:(vm_compute; reflexivity) _ I).
      now rewrite (proj2 (trad_dom o) I).
    + destruct (not_secret_in pq_sigs ltac:(vm_compute; reflexivity) _ I) as (-> & ->).
      rewrite (disjoint pq_sigs SYMMETRIC_PROT_ALGO ltac:(vm_compute; reflexivity) _ I).
      rewrite (disjoint pq_sigs TRAD_SIG_OID_2_NAME ltac:(vm_compute; reflexivity) _ I).
      rewrite (disjoint pq_sigs PQ_STATEFUL_OID_2_NAME ltac:(vm_compute; reflexivity) _ I).
      now rewrite (proj2 (pq_dom o) I).
    + destruct (not_secret_in stateful_oids ltac:(vm_compute; reflexivity) _ I) as (-> & ->).
      rewrite (disjoint stateful_oids SYMMETRIC_PROT_ALGO ltac:(vm_compute; reflexivity) _ I).
      rewrite (disjoint stateful_oids TRAD_SIG_OID_2_NAME ltac:(vm_compute; reflexivity) _ I).
      now rewrite (proj2 (stf_dom o) I).
    + destruct (not_secret_in composites ltac:(vm_compute; reflexivity) _ I) as (-> & ->).
      rewrite (disjoint composites SYMMETRIC_PROT_ALGO ltac:(vm_compute; reflexivity) _ I).
      rewrite (disjoint composites TRAD_SIG_OID_2_NAME ltac:(vm_compute; reflexivity) _ I).
      rewrite (disjoint composites PQ_STATEFUL_OID_2_NAME ltac:(vm_compute; reflexivity) _ I).
      rewrite (disjoint composites PQ_SIG_OID_2_NAME ltac:(vm_compute; reflexivity) _ I).
      now rewrite (proj2 (comp_dom o) I).
Qed.
Lemma type_unknown : forall o, (forall t, ~ oid_kind o t) -> get_protection_type o = Err EUnknownOID.
Proof.
  intros o N. destruct (get_protection_type o) as [t|e] eqn:E; [exfalso; apply type_exact in E; exact (N t E)|].
  unfold get_protection_type in E.
  repeat match type of E with (if ?b then _ else _) = _ => destruct b; [discriminate E|] end. congruence.
Qed.

(** The type of the protection of a message. *)
Theorem kind_exact : forall h a lw ad ak t, h_alg h = Some a ->
  (get_protection_type_from_pkimessage h lw ad ak = Ok t <->
   oid_kind (a_oid a) t /\ (t = T_KEM -> ak = true) /\ (t = T_DH -> ad = true) /\ (lw = true -> lw_allowed (a_oid a) t)).
Proof.
  intros h a lw ad ak t HA. unfold get_protection_type_from_pkimessage, enforce_lwcmp_protection_alg. rewrite HA.
  destruct (get_protection_type (a_oid a)) as [t'|e] eqn:E; cbn [bind].
  2:{ split; [discriminate|]. intros (K & _). apply type_exact in K. congruence. }
  assert (EQ : forall x, oid_kind (a_oid a) x <-> x = t').
  { intro x. rewrite <- type_exact, E. split; [intro X; inversion X; reflexivity|intros ->; reflexivity]. }
  rewrite EQ. clear HA. destruct lw.
  - destruct t'; cbn [lw_allowed].
    + destruct (has (a_oid a) MSG_SIG_ALG) eqn:Q; cbn [guard bind]; split.
      * intro X; inversion X; subst. repeat split; try discriminate. intros _. cbn [lw_allowed]. now apply lw_msg.
      * intros (-> & _); reflexivity.
      * discriminate.
      * intros (-> & _ & _ & X). specialize (X eq_refl). cbn [lw_allowed] in X. apply lw_msg in X. congruence.
    + destruct ak; cbn [guard bind]; split.
      * intro X; inversion X; subst. repeat split; auto; discriminate.
      * intros (-> & _); reflexivity.
      * discriminate.
      * intros (-> & X & _). specialize (X eq_refl). discriminate X.
    + destruct ad; cbn [guard bind]; split.
      * intro X; inversion X; subst. repeat split; auto; discriminate.
      * intros (-> & _); reflexivity.
      * discriminate.
      * intros (-> & _ & X & _). specialize (X eq_refl). discriminate X.
    + destruct (has (a_oid a) LWCMP_MAC_OID_2_NAME) eqn:Q; cbn [guard bind]; split.
      * intro X; inversion X; subst. repeat split; try discriminate. intros _. cbn [lw_allowed]. apply lwmac_dom in Q.
        destruct Q as [Q|[Q|[]]]; auto.
      * intros (-> & _); reflexivity.
      * discriminate.
      * intros (-> & _ & _ & X). specialize (X eq_refl). cbn [lw_allowed] in X.
        assert (Y : In (a_oid a) ["id_PBMAC1"; "id_PasswordBasedMac"]) by (destruct X as [-> | ->]; cbn; tauto).
        apply lwmac_dom in Y. congruence.
    + split; [discriminate|]. intros (-> & _ & _ & X). destruct (X eq_refl).
    + split; [discriminate|]. intros (-> & _ & _ & X). destruct (X eq_refl).
    + split; [discriminate|]. intros (-> & _ & _ & X). destruct (X eq_refl).
  - assert (R : match t' with T_KEM => t' = t' | T_DH => t' = t' | _ =>
        (if has (a_oid a) SYMMETRIC_PROT_ALGO then Ok T_MAC else if has (a_oid a) TRAD_SIG_OID_2_NAME then Ok T_SIG
         else if has (a_oid a) PQ_STATEFUL_OID_2_NAME then Ok t' else if has (a_oid a) COMPOSITE_SIG_OID_TO_NAME then Ok T_COMP
         else if has (a_oid a) PQ_SIG_OID_2_NAME then Ok T_PQ else Err EUnknownOID) = Ok t' end).
    { clear EQ. unfold get_protection_type in E.
      destruct (String.eqb (a_oid a) "id_KemBasedMac"); [inversion E; reflexivity|].
      destruct (String.eqb (a_oid a) "id_DHBasedMac"); [inversion E; reflexivity|].
      destruct (has (a_oid a) SYMMETRIC_PROT_ALGO); [inversion E; reflexivity|].
      destruct (has (a_oid a) TRAD_SIG_OID_2_NAME); [inversion E; reflexivity|].
      destruct (has (a_oid a) PQ_STATEFUL_OID_2_NAME); [inversion E; reflexivity|].
      destruct (has (a_oid a) PQ_SIG_OID_2_NAME) eqn:Q.
      - inversion E; subst t'. apply pq_dom in Q.
        now rewrite (disjoint pq_sigs COMPOSITE_SIG_OID_TO_NAME ltac:(vm_compute; reflexivity) _ Q).
      - destruct (has (a_oid a) COMPOSITE_SIG_OID_TO_NAME); [inversion E; reflexivity|discriminate E]. }
    destruct t'; try rewrite R;
      try (split; [intro X; inversion X; subst; repeat split; auto; discriminate|intros (-> & _); reflexivity]).
    + destruct ak; cbn [guard bind]; split.
      * intro X; inversion X; subst. repeat split; auto; discriminate.
      * intros (-> & _); reflexivity.
      * discriminate.
      * intros (-> & X & _). specialize (X eq_refl). discriminate X.
    + destruct ad; cbn [guard bind]; split.
      * intro X; inversion X; subst. repeat split; auto; discriminate.
      * intros (-> & _); reflexivity.
      * discriminate.
      * intros (-> & _ & X & _). specialize (X eq_refl). discriminate X.
Qed.
(** The error that is raised otherwise. *)
Theorem kind_errors : forall h a lw ad ak, h_alg h = Some a ->
  ((forall t, ~ oid_kind (a_oid a) t) -> get_protection_type_from_pkimessage h lw ad ak = Err EUnknownOID) /\
  (forall t, oid_kind (a_oid a) t ->
     get_protection_type_from_pkimessage h lw ad ak = Ok t \/ get_protection_type_from_pkimessage h lw ad ak = Err EBadAlg).
Proof.
  intros h a lw ad ak HA. split.
  - intro N. unfold get_protection_type_from_pkimessage. rewrite HA, (type_unknown _ N). reflexivity.
  - intros t K. destruct (get_protection_type_from_pkimessage h lw ad ak) as [t'|e] eqn:E.
    + left. apply (kind_exact h a lw ad ak t' HA) in E as (K' & _). apply type_exact in K, K'. congruence.
    + right. f_equal. unfold get_protection_type_from_pkimessage, enforce_lwcmp_protection_alg in E. rewrite HA in E.
      pose proof K as K2. apply type_exact in K. rewrite K in E. cbn [bind] in E.
      destruct lw.
      * destruct t; try (match type of E with (let! _ := guard ?b _ in _) = _ => destruct b end; cbn [guard bind] in E; congruence); congruence.
      * destruct t; try (match type of E with (let! _ := guard ?b _ in _) = _ => destruct b end; cbn [guard bind] in E; congruence).
        all: exfalso; inversion K2; subst; clear K2;
          match goal with
          | I : In _ mac_oids |- _ => rewrite (proj2 (sym_dom _)) in E by (right; right; exact I); discriminate E
          | I : In _ trad_sigs |- _ => destruct (has _ SYMMETRIC_PROT_ALGO); [discriminate E|]; rewrite (proj2 (trad_dom _) I) in E; discriminate E
          | I : In _ pq_sigs |- _ => rewrite (proj2 (pq_dom _) I) in E;
              repeat match type of E with (if ?b then _ else _) = _ => destruct b; [discriminate E|] end; discriminate E
          | I : In _ stateful_oids |- _ => rewrite (proj2 (stf_dom _) I) in E;
              repeat match type of E with (if ?b then _ else _) = _ => destruct b; [discriminate E|] end; discriminate E
          | I : In _ composites |- _ => rewrite (proj2 (comp_dom _) I) in E;
              repeat match type of E with (if ?b then _ else _) = _ => destruct b; [discriminate E|] end; discriminate E
          end.
Qed.
