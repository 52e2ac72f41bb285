(** Chains of a migration (C135) and of Sun hybrid certificates (C136), kinds of hybrid certificates and hybrid signatures of two
    certificates (C137). *)
From Coq Require Import String Lia.
From Verif Require Import Prelude CertChainModel CertChainSpec MigModel MigSpec MigProofs.
From Verif Require CertChainProperties ProtMac.
Open Scope string_scope.
Open Scope Z_scope.
Open Scope list_scope.

(** A library for the examples: a certificate is signed by the one with the name of its issuer; the key of the one with serial
    number 99 cannot be read; those with a serial number above 50 are Sun hybrid certificates, whose conversion has the
    number raised by 100. *)
Definition mk (n by_ s : Z) : cert := {| c_der := [n; s]; c_issuer := [by_]; c_subject := [n]; c_name := ""; c_serial := s |}.
Definition check (x c : cert) : result unit :=
  if c_serial x =? 99 then Err EInvalidKeyData else if c_serial x =? 13 then Err EInvalidSignature else Ok tt.
Definition form4 (c : cert) : result cert :=
  if c_serial c <? 50 then Err EValueError
  else Ok {| c_der := c_der c; c_issuer := c_issuer c; c_subject := c_subject c; c_name := "4"; c_serial := c_serial c + 100 |}.
Definition toy : lib := {| l_verify := check; l_form4 := form4; l_trad := fun c x => check x c;
  l_env := {| e_load := fun _ => Ok tt; e_hash := fun _ => Ok tt; e_verify := fun x c => if bytes_eqb (c_issuer c) (c_subject x) then Ok tt else Err EInvalidSignature |} |}.
Definition ee := mk 1 2 1. Definition ca := mk 2 3 2. Definition root := mk 3 3 3. Definition fake := mk 2 3 13. Definition broken := mk 2 3 99.

(** ** C135: migration *)

(** A chain starts with the certificate; each is signed by the next; the issuers are in the order of the list; and none but the
    last is its own issuer. *)
Theorem C135_chain : forall L c pool allow ch, migration_chain L c pool allow = Ok ch ->
  exists l, ch = c :: l /\ subseq l pool /\ linked (signed L) ch /\ (forall x, In x (removelast ch) -> ~ own_issuer x) /\ (l = [] -> allow = true).
Proof.
  intros L c pool allow ch H. apply chain_iff in H. destruct H as (l & -> & W & _ & A). destruct (walk_sound L pool c l W) as (S & K & O).
  exists l. split; [reflexivity|]. split; [exact S|]. split; [exact K|]. split; [exact O|exact A].
Qed.
Print Assumptions C135_chain.
Example C135_chain_some : migration_chain toy ee [fake; ca; root] false = Ok [ee; ca; root] /\ migration_chain toy ee [root] false = Err EValueError
  /\ migration_chain toy root [ca; root] true = Ok [root] /\ migration_chain toy root [root] false = Err EValueError /\ migration_chain toy ee [] true = Err EValueError.
Proof. repeat split; vm_compute; reflexivity. Qed.
Print Assumptions C135_chain_some.
(** It ends with a certificate that is its own issuer, or that nothing after it in the list signed. *)
Theorem C135_ends : forall L c pool allow l, migration_chain L c pool allow = Ok (c :: l) ->
  exists p q, pool = p ++ q /\ subseq l p /\ (own_issuer (last l c) \/ forall x, In x q -> ~ signed L (last l c) x).
Proof. intros L c pool allow l H. apply chain_iff in H. destruct H as (m & E & W & _). assert (m = l) by congruence. subst. exact (walk_stops L pool c l W). Qed.
Print Assumptions C135_ends.
(** A chain that is in the list in its order is found, if nothing else in the list signed one of its certificates. *)
Theorem C135_complete : forall L c l pool allow, l <> [] -> subseq l pool -> NoDup (c :: l) -> linked (signed L) (c :: l) ->
  (forall x, In x (removelast (c :: l)) -> ~ own_issuer x) -> (forall x, In x (c :: l) -> decided L x pool) ->
  (forall x y, In x (c :: l) -> In y pool -> signed L x y -> x = last l c \/ next (c :: l) x y) ->
  (own_issuer (last l c) \/ forall y, In y pool -> ~ signed L (last l c) y) -> migration_chain L c pool allow = Ok (c :: l).
Proof.
  intros L c l pool allow NE S D K O DD U T. apply chain_iff. exists l. split; [reflexivity|]. split.
  - apply walk_complete; try assumption. intros x y I J. split; [exact (DD x I)|exact (U x y I J)].
  - split; [intros ->; inversion S; subst; contradiction|intros ->; contradiction].
Qed.
Print Assumptions C135_complete.
Example C135_complete_some : [ca; root] <> [] /\ subseq [ca; root] [fake; ca; root] /\ NoDup [ee; ca; root] /\ linked (signed toy) [ee; ca; root]
  /\ (forall x, In x (removelast [ee; ca; root]) -> ~ own_issuer x) /\ (forall x, In x [ee; ca; root] -> decided toy x [fake; ca; root])
  /\ (forall x y, In x [ee; ca; root] -> In y [fake; ca; root] -> signed toy x y -> x = last [ca; root] ee \/ next [ee; ca; root] x y)
  /\ own_issuer (last [ca; root] ee).
Proof.
  split; [discriminate|]. split; [apply sub_skip, sub_take, sub_take, sub_nil|].
  split; [repeat constructor; cbn [In]; intros H; repeat destruct H as [H|H]; try discriminate H; try contradiction|].
  split; [repeat split|]. split; [intros x [<- | [<- | []]] H; discriminate H|]. split; [|split; [|reflexivity]].
  - intros x [<- | [<- | [<- | []]]] y [<- | [<- | [<- | []]]];
      first [left; split; reflexivity | right; left; discriminate | right; right; exists EInvalidSignature; split; [reflexivity|right; right; left; reflexivity]].
  - intros x y [<- | [<- | [<- | []]]] [<- | [<- | [<- | []]]] [A B]; try discriminate A; try discriminate B; try (left; reflexivity); right.
    + exists [], [root]. reflexivity.
    + exists [ee], []. reflexivity.
Qed.
Print Assumptions C135_complete_some.
(** The list is looked at once: in another order the chain ends early. *)
Theorem C135_order_refuted : ~ (forall L c pool allow ch x, migration_chain L c pool allow = Ok ch -> In x pool -> signed L (last ch c) x -> own_issuer (last ch c)).
Proof.
  intros H. assert (own_issuer ca) as N by (apply (H toy ee [root; ca] false [ee; ca] root); [vm_compute; reflexivity|left; reflexivity|split; reflexivity]). discriminate N.
Qed.
Print Assumptions C135_order_refuted.
(** A certificate without an issuer in the list passes for self-signed. *)
Theorem C135_self_signed_refuted : ~ (forall L c pool, migration_chain L c pool true = Ok [c] -> own_issuer c).
Proof. intros H. specialize (H toy ee [root] eq_refl). discriminate H. Qed.
Print Assumptions C135_self_signed_refuted.
(** A certificate of the name of the issuer whose key cannot be read ends everything. *)
Theorem C135_unreadable : forall L c x e pool allow, c_issuer c = c_subject x -> l_verify L x c = Err e ->
  ~ In e [EValueError; EUnicode; EInvalidSignature; EInvalidAltSignature; EBadSigAlgID] -> migration_chain L c (x :: pool) allow = Err e.
Proof.
  intros L c x e pool allow N V F. unfold migration_chain. cbn [guard bind].
  destruct (step L c x pool) as [[[_ S] _]|[[[_ S] _]|[[X _]|(_ & e' & X & _ & _ & E)]]].
  - congruence.
  - congruence.
  - destruct X as [X|(e' & X & Z)]; [contradiction|]. exfalso. apply F. assert (e = e') as -> by congruence. exact Z.
  - rewrite E. assert (e = e') as -> by congruence. reflexivity.
Qed.
Print Assumptions C135_unreadable.
Theorem C135_unreadable_refuted : ~ (forall L c x pool, signed L c x -> own_issuer x -> In x pool -> exists ch, migration_chain L c pool false = Ok ch).
Proof.
  intros H. destruct (H toy (mk 1 3 1) root [mk 3 3 99; root]) as [ch E]; [split; reflexivity|reflexivity|right; left; reflexivity|vm_compute in E; discriminate E].
Qed.
Print Assumptions C135_unreadable_refuted.

(** ** C136: Sun hybrid certificates *)

(** The issuer: the first of the list with its name whose key verifies the certificate in form 4; all before it have another
    name or fail to verify it. *)
Theorem C136_issuer : forall L c pool x, find_issuer L c pool = Ok x <->
  exists c4 p q, l_form4 L c = Ok c4 /\ pool = p ++ x :: q /\ c_issuer c4 = c_subject x /\ l_trad L c4 x = Ok tt
    /\ forall y, In y p -> c_issuer c4 <> c_subject y \/ exists e, l_trad L c4 y = Err e /\ (e = EInvalidSignature \/ e = EInvalidAltSignature).
Proof. exact find_iff. Qed.
Print Assumptions C136_issuer.
Example C136_issuer_some : find_issuer toy (mk 1 2 51) [root; fake; ca] = Ok ca /\ find_issuer toy (mk 1 2 51) [root; fake] = Err EValueError
  /\ find_issuer toy ee [ca] = Err EValueError.
Proof. repeat split; vm_compute; reflexivity. Qed.
Print Assumptions C136_issuer_some.
(** Another certificate of the name, with a key that cannot be read, before the issuer: an exception. *)
Theorem C136_issuer_refuted : ~ (forall L c c4 x pool, l_form4 L c = Ok c4 -> c_issuer c4 = c_subject x -> l_trad L c4 x = Ok tt -> In x pool -> exists y, find_issuer L c pool = Ok y).
Proof.
  intros H. destruct (form4 (mk 1 2 51)) as [c4|] eqn:F; [|vm_compute in F; discriminate F].
  destruct (H toy (mk 1 2 51) c4 ca [broken; ca]) as [y E]; [exact F| | |right; left; reflexivity|vm_compute in E; discriminate E].
  - vm_compute in F. injection F as <-. reflexivity.
  - reflexivity.
Qed.
Print Assumptions C136_issuer_refuted.
(** The chain: that of the certificate in form 4 in the forms 4 of the list, and it is not only the certificate. *)
Theorem C136_chain : forall L c pool ch, sun_chain L c pool = Ok ch <->
  exists l c4 f, pool = Some l /\ l_form4 L c = Ok c4 /\ forms L l = Ok f /\ build_chain_from_list (l_env L) c4 f false = Ok ch /\ forall x, ch <> [x].
Proof. exact sun_iff. Qed.
Print Assumptions C136_chain.
(** So each of it is signed by the next, which is the form 4 of a certificate of the list. *)
Theorem C136_members : forall L c pool ch, sun_chain L c pool = Ok ch ->
  exists l c4 rest, pool = Some l /\ l_form4 L c = Ok c4 /\ ch = c4 :: rest /\ rest <> []
    /\ (forall y, In y rest -> y = c4 \/ exists x, In x l /\ l_form4 L x = Ok y) /\ consecutive (signed_by (l_env L)) ch.
Proof.
  intros L c pool ch H. apply sun_iff in H. destruct H as (l & c4 & f & -> & F & G & B & N). pose proof (build_in _ _ _ _ _ B) as I.
  destruct (CertChainProperties.C46_chain _ _ _ _ _ B) as (rest & -> & K & _). exists l, c4, rest. split; [reflexivity|]. split; [exact F|]. split; [reflexivity|].
  split; [intros ->; exact (N c4 eq_refl)|]. split.
  - intros y J. destruct (I y (or_intror J)) as [-> | J']; [left; reflexivity|right]. exact (proj1 (forms_in L l f G y) J').
  - clear -K. revert K. generalize (c4 :: rest). intros ch. induction ch as [|a [|b ch] IH]; cbn [consecutive]; trivial. intros [A K]. split; [|exact (IH K)].
    exact (proj1 A).
Qed.
Print Assumptions C136_members.
Example C136_chain_some : exists a b c, sun_chain toy (mk 1 2 51) (Some [root; mk 3 3 53; mk 2 3 52]) = Ok [a; b; c] /\ c_subject c = [3] /\ c_name c = "4"
  /\ sun_chain toy (mk 1 2 51) None = Err EValueError.
Proof. do 3 eexists. split; [vm_compute; reflexivity|]. repeat split. Qed.
Print Assumptions C136_chain_some.
(** A certificate of the list that is no Sun hybrid certificate is never in it, even the root that signed the others. *)
Theorem C136_ordinary_refuted : ~ (forall L c l c4 x, l_form4 L c = Ok c4 -> In x l -> signed_by (l_env L) c4 x -> same_names x -> exists ch, sun_chain L c (Some l) = Ok ch).
Proof.
  intros H. destruct (form4 (mk 1 3 51)) as [c4|] eqn:F; [|vm_compute in F; discriminate F].
  destruct (H toy (mk 1 3 51) [root] c4 root) as [ch E]; [exact F|left; reflexivity| |reflexivity|vm_compute in E; discriminate E].
  vm_compute in F. injection F as <-. repeat split.
Qed.
Print Assumptions C136_ordinary_refuted.

(** ** C137: kinds *)

(** The kind of a certificate is the first in this order that it looks like. *)
Theorem C137_kind : forall c k, is_hybrid c = Ok k <->
  let e o := In o (k_exts c) in
  (k = Some "composite-sig" /\ k_composite c = true)
  \/ (k_composite c = false /\ ((k = Some "chameleon" /\ e "id_ce_deltaCertificateDescriptor")
  \/ (~ e "id_ce_deltaCertificateDescriptor" /\ ((k = Some "sun-hybrid" /\ e "id_altSignatureExt")
  \/ (~ e "id_altSignatureExt" /\ ((k = Some "catalyst" /\ (e "id_ce_altSignatureValue" \/ e "id_ce_subjectAltPublicKeyInfo"))
  \/ (~ e "id_ce_altSignatureValue" /\ ~ e "id_ce_subjectAltPublicKeyInfo" /\ ((k = Some "cert-discovery" /\ k_discovery c = Ok true)
  \/ (k_discovery c = Ok false /\ ((k = Some "related-cert" /\ e "id_relatedCert") \/ (k = None /\ ~ e "id_relatedCert"))))))))))).
Proof.
  intros c k. cbn zeta. assert (forall o, has (k_exts c) o = true <-> In o (k_exts c)) as P.
  { intros o. unfold has. rewrite existsb_exists. split; [intros (x & I & E); apply String.eqb_eq in E; subst; exact I|]. intros I. exists o. split; [exact I|apply String.eqb_refl]. }
  assert (forall o, has (k_exts c) o = false <-> ~ In o (k_exts c)) as Q.
  { intros o. rewrite <- P. destruct (has (k_exts c) o); split; congruence. }
  rewrite <- !Q, <- !P. unfold is_hybrid. destruct (k_composite c).
  { split; [intros H; left; split; congruence|]. intros [[-> _]|[H _]]; [reflexivity|discriminate H]. }
  destruct (has (k_exts c) "id_ce_deltaCertificateDescriptor").
  { split; [intros H; right; split; [reflexivity|]; left; split; congruence|]. intros [[_ H]|[_ [[-> _]|[H _]]]]; try discriminate H. reflexivity. }
  destruct (has (k_exts c) "id_altSignatureExt").
  { split; [intros H; right; split; [reflexivity|]; right; split; [reflexivity|]; left; split; congruence|].
    intros [[_ H]|[_ [[_ H]|[_ [[-> _]|[H _]]]]]]; try discriminate H. reflexivity. }
  destruct (has (k_exts c) "id_ce_altSignatureValue") eqn:A, (has (k_exts c) "id_ce_subjectAltPublicKeyInfo") eqn:B; cbn [orb].
  1-3: split; [intros H; right; split; [reflexivity|]; right; split; [reflexivity|]; right; split; [reflexivity|]; left; split; [congruence|tauto]|];
    intros [[_ H]|[_ [[_ H]|[_ [[_ H]|[_ [[-> _]|(H & H' & _)]]]]]]]; try discriminate H; try discriminate H'; reflexivity.
  split.
  - intros H. right. split; [reflexivity|]. right. split; [reflexivity|]. right. split; [reflexivity|]. right. split; [reflexivity|]. split; [reflexivity|].
    destruct (k_discovery c) as [[|]|]; cbn [bind] in H; [left; split; congruence| |discriminate H]. right. split; [reflexivity|].
    destruct (has (k_exts c) "id_relatedCert"); [left|right]; split; congruence.
  - intros [[_ H]|[_ [[_ H]|[_ [[_ H]|[_ [[_ [H|H]]|(_ & _ & [[-> D]|[D R]])]]]]]]]; try discriminate H; rewrite D; cbn [bind]; [reflexivity|].
    destruct R as [[-> ->]|[-> ->]]; reflexivity.
Qed.
Print Assumptions C137_kind.
Example C137_kind_some : is_hybrid {| k_composite := false; k_exts := ["id_ce_altSignatureValue"; "id_ce_deltaCertificateDescriptor"]; k_discovery := Ok false |} = Ok (Some "chameleon")
  /\ is_hybrid {| k_composite := false; k_exts := ["id_relatedCert"]; k_discovery := Ok true |} = Ok (Some "cert-discovery")
  /\ is_hybrid {| k_composite := false; k_exts := ["id_relatedCert"]; k_discovery := Ok false |} = Ok (Some "related-cert")
  /\ is_hybrid {| k_composite := false; k_exts := []; k_discovery := Ok false |} = Ok None.
Proof. repeat split. Qed.
Print Assumptions C137_kind_some.
(** A hybrid signature with two certificates is accepted exactly if the other certificate is given, the key of the certificate
    itself is of a composite algorithm, and the composite of the two keys verifies it. *)
Theorem C137_two : forall K (Y : keys K) ee issuer other catalyst, verify_two Y ee issuer other catalyst = Ok tt <->
  exists o t p k, other = Some o /\ y_own Y ee = true /\ y_trad Y issuer = Ok t /\ y_pq Y o = Ok p /\ y_join Y p t = Ok k /\ y_verify Y k ee = Ok tt.
Proof.
  intros K Y ee0 issuer other catalyst. unfold verify_two. split.
  - destruct other as [o|]; [|discriminate]. destruct (y_own Y ee0) eqn:W; [|discriminate]. intros H. apply ProtMac.bind_inv in H. destruct H as (t & T & H).
    apply ProtMac.bind_inv in H. destruct H as (p & P & H). apply ProtMac.bind_inv in H. destruct H as (k & J & H). exists o, t, p, k. repeat split; assumption.
  - intros (o & t & p & k & -> & -> & -> & -> & J & V). cbn [bind]. rewrite J. exact V.
Qed.
Print Assumptions C137_two.
(** A toy of keys: the numbers of the certificates; a certificate is signed by the sum of its issuers; that of number 1 has a
    key of a composite algorithm. *)
Definition sums : keys Z := {| y_trad := fun c => Ok (c_serial c); y_pq := fun c => Ok (c_serial c); y_join := fun a b => Ok (a + b);
  y_verify := fun k c => if bytes_eqb (c_issuer c) [k] then Ok tt else Err EInvalidSignature; y_own := fun c => c_serial c =? 1 |}.
Example C137_two_some : verify_two sums (mk 1 5 1) ca (Some root) None = Ok tt /\ verify_two sums (mk 1 4 1) ca (Some root) None = Err EInvalidSignature.
Proof. split; reflexivity. Qed.
Print Assumptions C137_two_some.
(** The catalyst key is never used, though it is documented to stand in for the certificate; and a certificate that a composite
    key signed and that has another key itself is refused. *)
Theorem C137_catalyst : forall K (Y : keys K) ee issuer o k k', verify_two Y ee issuer None k = Err ETypeError /\ verify_two Y ee issuer (Some o) k = verify_two Y ee issuer (Some o) k'.
Proof. split; reflexivity. Qed.
Print Assumptions C137_catalyst.
Theorem C137_catalyst_refuted : ~ (forall K (Y : keys K) ee issuer t p k, y_trad Y issuer = Ok t -> y_join Y p t = Ok k -> y_own Y ee = true -> y_verify Y k ee = Ok tt ->
  verify_two Y ee issuer None (Some p) = Ok tt).
Proof. intros H. specialize (H Z sums (mk 1 5 1) ca 2 3 5 eq_refl eq_refl eq_refl eq_refl). discriminate H. Qed.
Print Assumptions C137_catalyst_refuted.
Theorem C137_own_key_refuted : ~ (forall K (Y : keys K) ee issuer o t p k, y_trad Y issuer = Ok t -> y_pq Y o = Ok p -> y_join Y p t = Ok k -> y_verify Y k ee = Ok tt ->
  verify_two Y ee issuer (Some o) None = Ok tt).
Proof. intros H. specialize (H Z sums (mk 4 5 4) ca root 2 3 5 eq_refl eq_refl eq_refl eq_refl). discriminate H. Qed.
Print Assumptions C137_own_key_refuted.
