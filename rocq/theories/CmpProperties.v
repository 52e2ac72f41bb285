(** Comparisons of names (C130), of templates with certificates (C131) and with lists of them (C132), and of requests and keys
    with certificates (C133); revocation (C134). *)
From Coq Require Import String Permutation Lia.
From Verif Require Import Prelude PyStr ProtTab ChamToy CatModel CmpModel CmpSpec CmpProofs CmpToy.
From Verif Require SdModel RelModel CAModel SunModel SunVerify.
Open Scope string_scope.
Open Scope Z_scope.
Open Scope list_scope.

(** ** C130: names *)

(** The modes are four words; any other text is an error, and with one of them there is always an answer. *)
Theorem C130_modes : forall L a b m,
  (is_mode m <-> exists r, compare_names L a b m = Ok r) /\ (~ is_mode m <-> compare_names L a b m = Err EValueError).
Proof.
  intros L a b m. assert (is_mode m -> exists r, compare_names L a b m = Ok r) as P by (intros [-> | [-> | [-> | ->]]]; eexists; reflexivity).
  pose proof (mode_iff L a b m) as M. split; split.
  - exact P.
  - intros (r & H). destruct (compare_names L a b m) eqn:E; [|discriminate H]. unfold compare_names, mode_of in E. unfold is_mode.
    destruct (String.eqb_spec m "strict"); [left; assumption|]. destruct (String.eqb_spec m "without_tag"); [right; left; assumption|].
    destruct (String.eqb_spec m "contains"); [do 2 right; left; assumption|]. destruct (String.eqb_spec m "contains_seq"); [do 3 right; assumption|discriminate E].
  - apply mode_error.
  - intros E I. destruct (P I) as (r & H). congruence.
Qed.
Print Assumptions C130_modes.
Example C130_modes_some : is_mode "contains" /\ ~ is_mode "STRICT" /\ compare_names toy n1 n2 "STRICT" = Err EValueError.
Proof. split; [do 2 right; left; reflexivity|]. split; [intros [H|[H|[H|H]]]; discriminate H|reflexivity]. Qed.
Print Assumptions C130_modes_some.
(** The documented examples pass the name of the mode in capitals. *)
Theorem C130_documented_mode_refuted : ~ (forall L a b, exists r, compare_names L a b "CONTAINS" = Ok r).
Proof. intros H. destruct (H toy n1 n1) as (r & E). discriminate E. Qed.
Print Assumptions C130_documented_mode_refuted.
(** Without the tag: the same RDNs in the same order, the attributes of each in any order. *)
Theorem C130_without_tag : forall L a b, canonical L -> compare_names L a b "without_tag" = Ok true <-> same_name (n_rdns a) (n_rdns b).
Proof. exact without_iff. Qed.
Print Assumptions C130_without_tag.
Example C130_without_tag_some : canonical toy /\ compare_names toy n1 n2 "without_tag" = Ok true /\ compare_names toy n1 n3 "without_tag" = Ok false
  /\ same_name (n_rdns n1) (n_rdns n2).
Proof. split; [apply toy_canonical|]. split; [vm_compute; reflexivity|]. split; [vm_compute; reflexivity|]. repeat constructor. Qed.
Print Assumptions C130_without_tag_some.
(** Strictly: the tags are the same, too. *)
Theorem C130_strict : forall L a b, canonical L ->
  compare_names L a b "strict" = Ok true <-> n_tag a = n_tag b /\ same_name (n_rdns a) (n_rdns b).
Proof. exact strict_iff. Qed.
Print Assumptions C130_strict.
Example C130_strict_some : canonical toy /\ compare_names toy n2 n2 "strict" = Ok true /\ compare_names toy n1 n2 "strict" = Ok false.
Proof. split; [apply toy_canonical|]. split; vm_compute; reflexivity. Qed.
Print Assumptions C130_strict_some.
(** contains: every attribute of the first name is one of the second; contains_seq: at the same position. *)
Theorem C130_contains : forall L a b, compare_names L a b "contains" = Ok true <-> forall x, in_name x (n_rdns a) -> in_name x (n_rdns b).
Proof. exact contains_iff. Qed.
Print Assumptions C130_contains.
Theorem C130_contains_seq : forall L a b, compare_names L a b "contains_seq" = Ok true <->
  forall i r x, nth_error (n_rdns a) i = Some r -> In x r -> exists s, nth_error (n_rdns b) i = Some s /\ In x s.
Proof. exact contains_seq_iff. Qed.
Print Assumptions C130_contains_seq.
Example C130_contains_some : compare_names toy n1 n3 "contains" = Ok true /\ compare_names toy n1 n3 "contains_seq" = Ok false
  /\ compare_names toy only_cn n1 "contains_seq" = Ok true /\ compare_names toy n1 only_cn "contains" = Ok false.
Proof. repeat split; vm_compute; reflexivity. Qed.
Print Assumptions C130_contains_some.
(** What the documentation says is the reverse. *)
Theorem C130_documented_refuted : ~ (forall L a b, canonical L ->
  compare_names L a b "contains" = Ok true <-> forall x, in_name x (n_rdns b) -> in_name x (n_rdns a)).
Proof.
  intros H. pose proof (proj2 (H toy n1 only_cn toy_canonical)) as P. assert (compare_names toy n1 only_cn "contains" = Ok false) as F by (vm_compute; reflexivity).
  rewrite F in P. discriminate P. intros x (r & [<- | []] & [<- | []]). exists [cn; org]. split; left; reflexivity.
Qed.
Print Assumptions C130_documented_refuted.
(** Each mode accepts what the one before it accepts. *)
Theorem C130_order : forall L a b, canonical L ->
  (compare_names L a b "strict" = Ok true -> compare_names L a b "without_tag" = Ok true)
  /\ (compare_names L a b "without_tag" = Ok true -> compare_names L a b "contains_seq" = Ok true)
  /\ (compare_names L a b "contains_seq" = Ok true -> compare_names L a b "contains" = Ok true).
Proof. intros L a b C. split; [apply strict_without, C|]. split; [apply without_seq, C|apply seq_contains]. Qed.
Print Assumptions C130_order.
(** An RDN is found in a name, and a name is empty. *)
Theorem C130_find : forall L r n, canonical L -> find_rdn L r n = true <-> exists s, In s (n_rdns n) /\ Permutation r s.
Proof. exact find_rdn_iff. Qed.
Print Assumptions C130_find.
Theorem C130_null : forall L n, canonical L -> is_null L n = true <-> n_rdns n = [].
Proof. exact null_iff. Qed.
Print Assumptions C130_null.
Example C130_find_some : canonical toy /\ find_rdn toy [org; cn] n1 = true /\ find_rdn toy [org] n1 = false /\ is_null toy nobody = true /\ is_null toy n1 = false.
Proof. split; [apply toy_canonical|]. repeat split; vm_compute; reflexivity. Qed.
Print Assumptions C130_find_some.
(** Parameters count as absent. *)
Theorem C130_params : forall p b, params_absent p b = true <-> p = PAbsent \/ (p = PNull /\ b = true) \/ p = PAny [5; 0].
Proof. exact params_iff. Qed.
Print Assumptions C130_params.
(** NULL that was decoded counts as absent even if it is not allowed. *)
Theorem C130_params_refuted : ~ (forall p, params_absent p false = true -> p = PAbsent).
Proof. intros H. discriminate (H (PAny [5; 0]) eq_refl). Qed.
Print Assumptions C130_params_refuted.

(** ** C131: templates *)

(** A template and a certificate compare as equal exactly if the fields that are compared and that the template has agree. *)
Theorem C131_equal : forall L t c i e strict, compare_template L t c i e strict = Ok true <-> agree L t c (wanted i e) strict.
Proof. exact template_iff. Qed.
Print Assumptions C131_equal.
(** As different exactly if they do not, when the names can be shown and the keys be read. *)
Theorem C131_different : forall L t c i e strict, readable L t c ->
  compare_template L t c i e strict = Ok false <-> ~ agree L t c (wanted i e) strict.
Proof. exact disagree. Qed.
Print Assumptions C131_different.
Example C131_some : compare_template toy tpl crt None None true = Ok true /\ compare_template toy tpl crt' None None true = Ok false
  /\ readable toy tpl crt /\ compare_template toy (with_serial 7 n1) crt None None true = Ok false
  /\ compare_template toy (with_serial 7 n1) crt (Some "serialNumber") None true = Ok true
  /\ compare_template toy (with_serial 7 n1) crt None (Some " issuer") true = Ok true
  /\ compare_template toy (with_subject only_cn) crt None None true = Ok false
  /\ compare_template toy (with_subject only_cn) crt None None false = Ok true.
Proof.
  split; [vm_compute; reflexivity|]. split; [vm_compute; reflexivity|]. split; [eapply toy_readable; [reflexivity|right; reflexivity]|].
  repeat split; vm_compute; reflexivity.
Qed.
Print Assumptions C131_some.
(** Fields that are not compared do not matter: two certificates that agree on the others compare the same. In particular an
    empty template compares as equal to every certificate. *)
Theorem C131_empty : forall L c i e strict, compare_template L empty_template c i e strict = Ok true.
Proof. exact empty_agrees. Qed.
Print Assumptions C131_empty.
(** What is included has precedence over what is excluded. *)
Theorem C131_precedence : forall L t c i e strict, compare_template L t c (Some i) e strict = compare_template L t c (Some i) None strict.
Proof. exact include_wins. Qed.
Print Assumptions C131_precedence.
Example C131_precedence_some : compare_template toy (with_serial 8 n1) crt' (Some "serialNumber") (Some "serialNumber") true = Ok true
  /\ compare_template toy (with_serial 7 n1) crt' (Some "serialNumber") (Some "serialNumber") true = Ok false.
Proof. split; vm_compute; reflexivity. Qed.
Print Assumptions C131_precedence_some.
(** More fields compared, fewer certificates. *)
Theorem C131_fewer : forall L t c i e i' e' strict, (forall f, wanted i' e' f -> wanted i e f) ->
  compare_template L t c i e strict = Ok true -> compare_template L t c i' e' strict = Ok true.
Proof.
  intros L t c i e i' e' strict W H. apply template_iff in H. apply template_iff. destruct H as [A B C1 C2 C3 D E1 E2 F G H].
  constructor; intros X; apply W in X; [exact (A X)|exact (B X)|exact (C1 X)|exact (C2 X)|exact (C3 X)|exact (D X)|exact (E1 X)|exact (E2 X)|exact (F X)|exact (G X)|exact (H X)].
Qed.
Print Assumptions C131_fewer.
Example C131_fewer_some : (forall f, wanted (Some "serialNumber") None f -> wanted None None f) /\ compare_template toy tpl crt None None false = Ok true.
Proof. split; [intros f _; exact I|vm_compute; reflexivity]. Qed.
Print Assumptions C131_fewer_some.
(** The strict comparison of subjects is stricter. *)
Theorem C131_strict : forall L t c i e, canonical L -> compare_template L t c i e true = Ok true -> compare_template L t c i e false = Ok true.
Proof.
  intros L t c i e C H. apply template_iff in H. apply template_iff. destruct H as [A B C1 C2 C3 D E1 E2 F G H].
  constructor; try assumption. intros W n T. specialize (C2 W n T). cbn in C2. apply contains_iff with (L := L), seq_contains, without_seq; [exact C|]. apply without_enc, C2.
Qed.
Print Assumptions C131_strict.
(** Of the extensions only the types are compared. *)
Theorem C131_extensions_refuted : ~ (forall L t c l e, canonical L -> compare_template L t c None None true = Ok true -> t_exts t = Some l -> In e l -> In e (c_exts c)).
Proof.
  intros H. specialize (H toy (with_exts [bc 0]) crt' [bc 0] (bc 0) toy_canonical). destruct H as [H|[]]; [vm_compute; reflexivity|reflexivity|left; reflexivity|discriminate H].
Qed.
Print Assumptions C131_extensions_refuted.
(** A blank after a comma: the field is not compared. *)
Theorem C131_blank_refuted : ~ (forall L t c n, canonical L -> compare_template L t c (Some "serialNumber, issuer") None true = Ok true -> t_issuer t = Some n ->
  same_name (n_rdns n) (n_rdns (c_issuer c))).
Proof.
  intros H. assert (compare_names toy n1 n3 "without_tag" = Ok true) as E; [|vm_compute in E; discriminate E].
  apply without_iff; [apply toy_canonical|]. apply (H toy (with_serial 7 n1) crt n1 toy_canonical); [vm_compute; reflexivity|reflexivity].
Qed.
Print Assumptions C131_blank_refuted.
(** An empty public key whose algorithm is another one: an exception instead of a difference. *)
Theorem C131_key_refuted : ~ (forall L t c, canonical L -> (forall n, exists x, l_notation L n = Ok x) -> (exists k, l_load L (c_key c) = Ok k) ->
  exists b, compare_template L t c None None true = Ok b).
Proof.
  intros H. destruct (H toy (with_key {| k_alg := ec; k_bits := [] |}) crt toy_canonical) as [b E]; [intros n; eexists; reflexivity|eexists; reflexivity|].
  vm_compute in E. discriminate E.
Qed.
Print Assumptions C131_key_refuted.

(** Which exception: of the comparison of the parameters, if only one side has any, else of the text for the log. *)
Theorem C131_key_error : forall L t c a, t_key t = Some {| k_alg := a; k_bits := [] |} -> a <> k_alg (c_key c) ->
  key_ok L t c false = Err (if String.eqb (g_oid a) (g_oid (k_alg (c_key c)))
    then match g_par a, g_par (k_alg (c_key c)) with Some _, None | None, Some _ => EPyAsn1 | _, _ => ETypeError end else ETypeError).
Proof.
  intros L t c a T N. unfold key_ok. rewrite T. cbn [k_bits k_alg]. destruct (SunModel.alg_cmp a (k_alg (c_key c))) as [[|]|e] eqn:A; cbn [bind].
  - apply SunVerify.alg_cmp_iff in A. contradiction.
  - unfold SunModel.alg_cmp in A. destruct (String.eqb (g_oid a) (g_oid (k_alg (c_key c)))); [|reflexivity]. destruct (g_par a), (g_par (k_alg (c_key c))); try reflexivity; discriminate A.
  - unfold SunModel.alg_cmp in A. destruct (String.eqb (g_oid a) (g_oid (k_alg (c_key c)))); [|discriminate A]. destruct (g_par a), (g_par (k_alg (c_key c))); try discriminate A; congruence.
Qed.
Print Assumptions C131_key_error.
Example C131_key_error_some : compare_template toy (with_key {| k_alg := {| g_oid := "rsaEncryption"; g_par := None |}; k_bits := [] |}) crt None None true = Err EPyAsn1
  /\ compare_template toy (with_key {| k_alg := ec; k_bits := [] |}) crt None None true = Err ETypeError.
Proof. split; vm_compute; reflexivity. Qed.
Print Assumptions C131_key_error_some.

(** ** C132: lists of certificates *)

(** The certificate to be revoked: the first of the list that the whole template fits; none before it may fail to be read. *)
Theorem C132_found : forall L t certs c, contains_template L t certs = Ok c <->
  exists p q, certs = p ++ c :: q /\ agree L t c (fun _ => True) true /\ (exists b, compare_template L t c (Some "serialNumber, issuer") None false = Ok b)
    /\ forall x, In x p -> compare_template L t x None None true = Ok false /\ exists b, compare_template L t x (Some "serialNumber, issuer") None false = Ok b.
Proof. exact contained_iff. Qed.
Print Assumptions C132_found.
(** What is found, for certificates that can be read: it is in the list and fits; nothing is found exactly if nothing fits. *)
Theorem C132_fits : forall L t certs, (forall c, In c certs -> readable L t c) ->
  (forall c, contains_template L t certs = Ok c -> In c certs /\ agree L t c (fun _ => True) true)
  /\ (contains_template L t certs = Err EBadCertId <-> forall c, In c certs -> ~ agree L t c (fun _ => True) true).
Proof.
  intros L t certs R. split.
  - intros c H. apply contained_iff in H. destruct H as (p & q & -> & A & _). split; [apply in_or_app; right; left; reflexivity|exact A].
  - induction certs as [|x r IH]; cbn [contains_template]; [split; [intros _ c []|reflexivity]|].
    destruct (total L t x (Some "serialNumber, issuer") None false (R x (or_introl eq_refl))) as [b ->]. cbn [bind].
    pose proof (template_iff L t x None None true) as T. cbn [wanted] in T.
    destruct (total L t x None None true (R x (or_introl eq_refl))) as [[|] E]; rewrite E; cbn [bind].
    + split; [discriminate|]. intros H. exfalso. apply (H x (or_introl eq_refl)), T, E.
    + rewrite IH by (intros c I; apply R; right; exact I). split.
      * intros H c [<- | I]; [intros A; apply T in A; congruence|exact (H c I)].
      * intros H c I. apply H. right. exact I.
Qed.
Print Assumptions C132_fits.
Example C132_found_some : contains_template toy (with_serial 8 n1) [crt; crt'; crt] = Ok crt' /\ contains_template toy (with_serial 9 n1) [crt; crt'] = Err EBadCertId
  /\ (forall c, In c [crt; crt'] -> readable toy (with_serial 8 n1) c).
Proof.
  split; [vm_compute; reflexivity|]. split; [vm_compute; reflexivity|].
  intros c [<- | [<- | []]]; eapply toy_readable; try reflexivity; left; reflexivity.
Qed.
Print Assumptions C132_found_some.
(** With the serial number and the issuer, which identify a certificate, the one that has them is found. *)
Theorem C132_by_serial : forall L n i certs c, canonical L -> (forall x, In x certs -> readable L (with_serial n i) x) ->
  contains_template L (with_serial n i) certs = Ok c -> In c certs /\ c_serial c = n /\ same_name (n_rdns i) (n_rdns (c_issuer c)).
Proof.
  intros L n i certs c C R H. apply contained_iff in H. destruct H as (p & q & -> & A & _). split; [apply in_or_app; right; left; reflexivity|].
  split; [symmetry; apply (a_serial _ _ _ _ _ A I n eq_refl)|]. apply (w_seq L C), (a_issuer _ _ _ _ _ A I i eq_refl).
Qed.
Print Assumptions C132_by_serial.
(** A template that names nothing stands for the first certificate of the list. *)
Theorem C132_anything : forall L c r, contains_template L empty_template (c :: r) = Ok c.
Proof. intros L c r. cbn [contains_template]. rewrite !empty_agrees. reflexivity. Qed.
Print Assumptions C132_anything.
(** Whether a certificate for the subject and the key has been issued. *)
Theorem C132_subject_key : forall L t k n certs, canonical L -> t_subject t = Some n -> (forall c, In c certs -> exists x, l_load L (c_key c) = Ok x) ->
  template_exists L t (Ok (Some k)) certs true = Ok true <->
  exists c x, In c certs /\ same_name (n_rdns (c_subject c)) (n_rdns n) /\ l_load L (c_key c) = Ok x /\ l_same L k x = true.
Proof. exact exists_subject. Qed.
Print Assumptions C132_subject_key.
(** Whether one has been issued that fits the template. *)
Theorem C132_template : forall L t k certs, (forall c, In c certs -> readable L t c) ->
  template_exists L t (Ok (Some k)) certs false = Ok true <-> exists c, In c certs /\ agree L t c (fun _ => True) true.
Proof. exact exists_full. Qed.
Print Assumptions C132_template.
(** A template without a key never exists already, whatever it names. *)
Theorem C132_no_key : forall L t certs only, template_exists L t (Ok None) certs only = Ok false.
Proof. reflexivity. Qed.
Print Assumptions C132_no_key.
(** By the subject, a template without one is an error as soon as a certificate has been issued. *)
Theorem C132_no_subject : forall L t k c r, t_subject t = None -> template_exists L t (Ok (Some k)) (c :: r) true = Err EPyAsn1.
Proof. intros L t k c r T. unfold template_exists. cbn. now rewrite T. Qed.
Print Assumptions C132_no_subject.
Definition loaded (s : spki) : result (option pub) := let! k := l_load toy s in Ok (Some k).
Example C132_exists_some : template_exists toy tpl (loaded key) [crt'; crt] true = Ok true
  /\ template_exists toy tpl (loaded key) [crt'; crt] false = Ok true
  /\ template_exists toy tpl (loaded key') [crt'; crt] true = Ok false
  /\ template_exists toy (with_key key) (loaded key) [crt'] true = Err EPyAsn1.
Proof. repeat split; vm_compute; reflexivity. Qed.
Print Assumptions C132_exists_some.
(** The response has the right status: what was issued is what was asked for, or the status says that it is not. *)
Theorem C132_granted : forall L t c i e strict status, granted L t c i e strict status = Ok tt <->
  agree L t c (wanted i e) strict \/ (compare_template L t c i e strict = Ok false /\ status = Ok "grantedWithMods").
Proof. exact granted_iff. Qed.
Print Assumptions C132_granted.
Example C132_granted_some : granted toy tpl crt None None true (Ok "accepted") = Ok tt /\ granted toy tpl crt' None None true (Ok "accepted") = Err EValueError
  /\ granted toy tpl crt' None None true (Ok "grantedWithMods") = Ok tt.
Proof. repeat split; vm_compute; reflexivity. Qed.
Print Assumptions C132_granted_some.
(** The status is not looked at if they agree. *)
Theorem C132_granted_refuted : ~ (forall L t c status, canonical L -> granted L t c None None true status = Ok tt -> status = Ok "grantedWithMods" -> ~ agree L t c (fun _ => True) true).
Proof.
  intros H. apply (H toy tpl crt (Ok "grantedWithMods") toy_canonical); [vm_compute; reflexivity|reflexivity|]. apply (template_iff toy tpl crt None None true). vm_compute. reflexivity.
Qed.
Print Assumptions C132_granted_refuted.

(** ** C133: requests and keys *)

(** A certificate is that of a request exactly if the subject, the key and the extensions asked for are its own. *)
Theorem C133_request : forall L r c strict, compare_csr L r c strict = Ok true <->
  (if strict then l_seqenc L (n_rdns (r_subject r)) = l_seqenc L (n_rdns (c_subject c)) else forall x, in_name x (n_rdns (r_subject r)) -> in_name x (n_rdns (c_subject c)))
  /\ l_spkienc L (r_key r) = l_spkienc L (c_key c)
  /\ (r_attrs r = None \/ r_attrs r = Some [] \/ (asks L r (c_exts c) /\ c_exts c <> [])).
Proof. exact csr_iff. Qed.
Print Assumptions C133_request.
Example C133_request_some : compare_csr toy (asking [bc 0]) crt true = Ok true /\ compare_csr toy (asking [bc 1]) crt true = Ok false
  /\ compare_csr toy (asking [bc 0]) crt' true = Ok false.
Proof. repeat split; vm_compute; reflexivity. Qed.
Print Assumptions C133_request_some.
(** A certificate may have extensions that were not asked for only if none were. *)
Theorem C133_no_more : forall L r c strict l, compare_csr L r c strict = Ok true -> asks L r l -> c_exts c = l.
Proof.
  intros L r c strict l H A. apply csr_iff in H. destruct H as (_ & _ & [H|[H|[B _]]]); destruct A as (a & v & more & rest & A1 & A2 & A3 & A4); try congruence.
  destruct B as (a' & v' & more' & rest' & B1 & B2 & B3 & B4). assert (a = a') by congruence. subst. assert (v = v') by congruence. subst. congruence.
Qed.
Print Assumptions C133_no_more.
Example C133_no_more_some : compare_csr toy (asking [bc 0]) crt true = Ok true /\ asks toy (asking [bc 0]) [bc 0].
Proof. split; [vm_compute; reflexivity|]. repeat eexists. Qed.
Print Assumptions C133_no_more_some.
(** A request with another attribute, such as a challenge password, cannot be compared. *)
Theorem C133_attributes : forall L r c strict l, r_attrs r = Some l -> l <> [] -> (forall a, l <> [a] \/ SdModel.t_type a <> RelModel.EXT_REQUEST) ->
  compare_csr L r c strict = Ok false \/ compare_csr L r c strict = Err ENotImplemented.
Proof.
  intros L r c strict l E N A. unfold compare_csr. destruct strict.
  all: match goal with |- context [compare_names ?L ?a ?b ?m] => destruct (compare_names L a b m) as [x|] eqn:X; [|vm_compute in X; discriminate X] end.
  all: cbn [bind]; destruct (negb x); [left; reflexivity|]; destruct (negb _); [left; reflexivity|]; rewrite E; destruct l as [|a [|b l]]; [contradiction| |right; reflexivity].
  all: destruct (String.eqb_spec (SdModel.t_type a) RelModel.EXT_REQUEST) as [T|T]; [destruct (A a); contradiction|right; reflexivity].
Qed.
Print Assumptions C133_attributes.
Theorem C133_attributes_refuted : ~ (forall L r c, canonical L -> exists b, compare_csr L r c true = Ok b).
Proof.
  intros H. destruct (H toy {| r_subject := n1; r_key := key; r_attrs := Some [{| SdModel.t_type := "challengePassword"; SdModel.t_vals := [[1]] |}] |} crt toy_canonical) as [b E].
  vm_compute in E. discriminate E.
Qed.
Print Assumptions C133_attributes_refuted.
(** A certificate is that of a key exactly if its key is equal to it and of the same kind, and if the identifiers of the
    algorithm are the same, where one is given. *)
Theorem C133_key : forall L c k nm, validate_key L c k nm = Ok tt <->
  exists p x, (match k with KPublic p' => p = p' | KInfo s => l_load L s = Ok p /\ g_oid (k_alg s) = g_oid (k_alg (c_key c)) end)
    /\ l_load L (c_key c) = Ok x /\ l_same L p x = true /\ l_class L p = l_class L x
    /\ forall n, nm = Some n -> l_by_name L n = Ok (g_oid (k_alg (c_key c))).
Proof. exact key_valid_iff. Qed.
Print Assumptions C133_key.
Example C133_key_some : validate_key toy crt (KInfo key) (Some "rsa") = Ok tt /\ validate_key toy crt (KInfo key') None = Err EValueError
  /\ validate_key toy crt (KPublic {| u_id := en c_spki key |}) None = Ok tt.
Proof. repeat split; vm_compute; reflexivity. Qed.
Print Assumptions C133_key_some.

(** ** C134: revocation *)

(** An entry is accepted exactly if it names the issuer and the serial number, the version at most as v2, fits a certificate
    that was issued and gives one reason; and if what is revoked is given, it asks for what can be done. *)
Theorem C134_accepted : forall L D E d issued revoked r c, rev_details L D E d issued revoked = Ok (r, c) <->
  ((exists n, t_issuer (d_tpl d) = Some n) /\ (exists n, t_serial (d_tpl d) = Some n) /\ (t_version (d_tpl d) = None \/ t_version (d_tpl d) = Some 1))
  /\ contains_template L (d_tpl d) issued = Ok c /\ gives_reason D (d_crl d) r
  /\ forall l, revoked = Some l -> (r = "removeFromCRL" <-> In (E c) (map E l)).
Proof. exact rev_iff. Qed.
Print Assumptions C134_accepted.
(** The certificate that is revoked is one that was issued and that the entry identifies. *)
Theorem C134_identified : forall L D E d issued revoked r c, rev_details L D E d issued revoked = Ok (r, c) -> In c issued /\ identifies L (d_tpl d) c.
Proof. exact rev_identified. Qed.
Print Assumptions C134_identified.
(** So it is the only one, if no issuer uses a serial number twice. *)
Theorem C134_unique : forall L D E d issued revoked r c c', canonical L -> rev_details L D E d issued revoked = Ok (r, c) ->
  (forall x y, In x issued -> In y issued -> c_serial x = c_serial y -> same_name (n_rdns (c_issuer x)) (n_rdns (c_issuer y)) -> x = y) ->
  In c' issued -> identifies L (d_tpl d) c' -> c' = c.
Proof.
  intros L D E d issued revoked r c c' C H U I (S & (n & N & X) & _). apply rev_identified in H. destruct H as (J & S' & (n' & N' & X') & _).
  apply U; [exact I|exact J|congruence|]. apply (w_seq L C). congruence.
Qed.
Print Assumptions C134_unique.
Definition toy_der (c : cert) : bytes := [c_serial c].
Definition toy_reason (b : bytes) : option (Z * bytes) := match b with [] => None | n :: r => Some (n, r) end.
Definition because (n : Z) : option (list ext) := Some [{| x_id := CRL_REASONS; x_crit := false; x_val := [n] |}].
Example C134_some :
  rev_details toy toy_reason toy_der {| d_tpl := with_serial 8 n1; d_crl := because 1 |} [crt; crt'] (Some [crt]) = Ok ("keyCompromise", crt')
  /\ rev_details toy toy_reason toy_der {| d_tpl := with_serial 7 n3; d_crl := because 8 |} [crt; crt'] (Some [crt]) = Ok ("removeFromCRL", crt)
  /\ rev_details toy toy_reason toy_der {| d_tpl := with_serial 7 n3; d_crl := because 1 |} [crt; crt'] (Some [crt]) = Err ECertRevoked
  /\ rev_details toy toy_reason toy_der {| d_tpl := with_serial 8 n1; d_crl := because 8 |} [crt; crt'] (Some [crt]) = Err EBadCertId
  /\ rev_details toy toy_reason toy_der {| d_tpl := with_serial 8 n1; d_crl := because 7 |} [crt; crt'] (Some [crt]) = Err EBadAsn1Data
  /\ rev_details toy toy_reason toy_der {| d_tpl := empty_template; d_crl := because 1 |} [crt; crt'] (Some [crt]) = Err EAddInfoNotAvailable
  /\ (forall x y, In x [crt; crt'] -> In y [crt; crt'] -> c_serial x = c_serial y -> same_name (n_rdns (c_issuer x)) (n_rdns (c_issuer y)) -> x = y).
Proof.
  repeat (split; [vm_compute; reflexivity|]). intros x y [<- | [<- | []]] [<- | [<- | []]] S _; try reflexivity; discriminate S.
Qed.
Print Assumptions C134_some.
(** Revoked and not revived, a certificate is not revoked again; and it is revived only after it was revoked. *)
Theorem C134_once : forall L D E d issued l r c, rev_details L D E d issued (Some l) = Ok (r, c) -> r <> "removeFromCRL" ->
  forall d' r', rev_details L D E d' issued (Some (c :: l)) = Ok (r', c) -> r' = "removeFromCRL".
Proof.
  intros L D E d issued l r c H N d' r' H'. apply rev_iff in H'. destruct H' as (_ & _ & _ & V). apply (V (c :: l) eq_refl). left. reflexivity.
Qed.
Print Assumptions C134_once.
Theorem C134_revive : forall L D E d issued l c, rev_details L D E d issued (Some l) = Ok ("removeFromCRL", c) -> exists x, In x l /\ E x = E c.
Proof. intros L D E d issued l c H. apply rev_iff in H. destruct H as (_ & _ & _ & V). destruct (proj1 (in_map_iff _ _ _) (proj1 (V l eq_refl) eq_refl)) as (x & A & B). exists x. split; assumption. Qed.
Print Assumptions C134_revive.
(** Without the list of what is revoked both are accepted always. *)
Theorem C134_unchecked : forall L D E d issued r c l, rev_details L D E d issued (Some l) = Ok (r, c) -> rev_details L D E d issued None = Ok (r, c).
Proof. intros L D E d issued r c l H. apply rev_iff in H. apply rev_iff. destruct H as (M & C & R & _). split; [exact M|]. split; [exact C|]. split; [exact R|discriminate]. Qed.
Print Assumptions C134_unchecked.
(** The version that may be named, v2, is compared with that of the certificate: no entry that names it revokes a v3
    certificate. *)
Theorem C134_version : forall L D E d issued revoked r c, t_version (d_tpl d) <> None -> rev_details L D E d issued revoked = Ok (r, c) -> c_version c = 1.
Proof.
  intros L D E d issued revoked r c N H. apply rev_identified in H. destruct H as (_ & _ & _ & [V|V] & A); [contradiction|].
  symmetry. exact (a_version _ _ _ _ _ A I 1 V).
Qed.
Print Assumptions C134_version.
Example C134_version_some : rev_details toy toy_reason toy_der {| d_tpl := tpl; d_crl := because 1 |} [crt] None = Err EBadRequest.
Proof. vm_compute. reflexivity. Qed.
Print Assumptions C134_version_some.
Theorem C134_version_refuted : ~ (forall L D E t n i c, canonical L -> t_serial t = Some n -> t_issuer t = Some i -> t_version t = Some 1 ->
  n = c_serial c -> same_name (n_rdns i) (n_rdns (c_issuer c)) -> t_validity t = None -> t_subject t = None -> t_key t = None -> t_iuid t = None ->
  t_suid t = None -> t_exts t = None -> gives_reason D (because 1) "keyCompromise" ->
  exists r, rev_details L D E {| d_tpl := t; d_crl := because 1 |} [c] None = Ok r).
Proof.
  intros H. destruct (H toy toy_reason toy_der {| t_version := Some 1; t_serial := Some 7; t_issuer := Some n3; t_validity := None; t_subject := None; t_key := None;
    t_iuid := None; t_suid := None; t_exts := None |} 7 n3 crt toy_canonical) as [r X]; try reflexivity; [repeat constructor| |vm_compute in X; discriminate X].
  eexists _, 1. split; [reflexivity|]. split; [reflexivity|]. split; [reflexivity|]. right. left. reflexivity.
Qed.
Print Assumptions C134_version_refuted.
(** By the lightweight profile there is one entry, and the response has its status. *)
Theorem C134_response : forall L D E l issued revoked s, build_rp L D E true l issued revoked = Ok s <->
  exists d x, l = [d] /\ s = [x] /\ rev_details L D E d issued revoked = x /\ forall e, x = Err e -> CAModel.is_cmp e = true.
Proof.
  intros L D E l issued revoked s. unfold build_rp. destruct l as [|d [|d' l]]; cbn [negb orb guard bind mapM].
  - split; [discriminate|]. intros (d & x & H & _). discriminate H.
  - destruct (rev_details L D E d issued revoked) as [x|e] eqn:X.
    + cbn. split; [intros H; exists d, (Ok x); repeat split; congruence|]. intros (d0 & y & A & -> & <- & _). assert (d = d0) by congruence. subst. rewrite X. reflexivity.
    + destruct (CAModel.is_cmp e) eqn:C; cbn.
      * split; [intros H; exists d, (Err e); repeat split; congruence|]. intros (d0 & y & A & -> & <- & _). assert (d = d0) by congruence. subst. rewrite X. reflexivity.
      * split; [discriminate|]. intros (d0 & y & A & -> & <- & Y). assert (d = d0) by congruence. subst. rewrite (Y e X) in C. discriminate C.
  - split; [discriminate|]. intros (d0 & x & H & _). discriminate H.
Qed.
Print Assumptions C134_response.
Example C134_response_some : build_rp toy toy_reason toy_der true [{| d_tpl := with_serial 8 n1; d_crl := because 1 |}] [crt; crt'] None = Ok [Ok ("keyCompromise", crt')]
  /\ build_rp toy toy_reason toy_der true [{| d_tpl := with_serial 9 n1; d_crl := because 1 |}] [crt; crt'] None = Ok [Err EBadCertId].
Proof. split; vm_compute; reflexivity. Qed.
Print Assumptions C134_response_some.
(** Without the profile no request that has an entry is answered. *)
Theorem C134_no_profile : forall L D E l issued revoked s, build_rp L D E false l issued revoked = Ok s -> l = [].
Proof.
  intros L D E [|d l] issued revoked s H; [reflexivity|]. unfold build_rp in H. cbn [negb orb guard bind mapM] in H.
  destruct (rev_details L D E d issued revoked) as [x|e]; [discriminate H|]. destruct (CAModel.is_cmp e); discriminate H.
Qed.
Print Assumptions C134_no_profile.
Theorem C134_no_profile_refuted : ~ (forall L D E d issued revoked x, canonical L -> rev_details L D E d issued revoked = Ok x ->
  exists s, build_rp L D E false [d] issued revoked = Ok s).
Proof.
  intros H. destruct (H toy toy_reason toy_der {| d_tpl := with_serial 8 n1; d_crl := because 1 |} [crt; crt'] None ("keyCompromise", crt') toy_canonical) as [s X].
  - vm_compute. reflexivity.
  - apply C134_no_profile in X. discriminate X.
Qed.
Print Assumptions C134_no_profile_refuted.
