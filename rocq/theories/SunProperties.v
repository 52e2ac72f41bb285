(** Sun hybrid certificates (C123, C124) and the alternative key of a certificate (C125). *)
From Coq Require Import String Ascii.
From Verif Require Import Prelude ProtToy ProtTab HdrModel ChamProofs ChamToy CatModel CatSpec CatProofs CatToy SunModel SunSpec SunProofs SunForm SunVerify SunIssue SunToy.
Open Scope string_scope.
Open Scope Z_scope.
Open Scope list_scope.

(** ** C123: forms *)

(** The extension for a key and that for a signature hold the value or its hash. *)
Theorem C123_key_extension : forall L k by_val h loc crit e, key_ext L k by_val h loc crit = Ok e <->
  exists a, key_value L k by_val h loc a /\ e = {| x_id := KEY_EXT; x_crit := crit; x_val := l_altenc L a |}.
Proof. exact key_ext_iff. Qed.
Print Assumptions C123_key_extension.
Example C123_key_extension_some : exists e, key_ext L0 (toy_pub 3 2) false (Some "sha256") (Some "key") false = Ok e
  /\ key_ext L0 (toy_pub 3 2) false None None false = Err EValueError.
Proof. eexists. split; [vm_compute; reflexivity|reflexivity]. Qed.
Print Assumptions C123_key_extension_some.
Theorem C123_signature_extension : forall L s by_val g h loc crit e, sig_ext L s by_val g h loc crit = Ok e <->
  exists a, sig_value L s g by_val h loc a /\ e = {| x_id := SIG_EXT; x_crit := crit; x_val := l_altenc L a |}.
Proof. exact sig_ext_iff. Qed.
Print Assumptions C123_signature_extension.
Example C123_signature_extension_some : exists e, sig_ext L0 [1; 2] false falcon (Some "sha256") (Some "sig") false = Ok e
  /\ sig_ext L0 [] true falcon None None false = Err EValueError.
Proof. eexists. split; [vm_compute; reflexivity|reflexivity]. Qed.
Print Assumptions C123_signature_extension_some.
(** Converting is to convert both extensions; nothing else changes. *)
Theorem C123_convert : forall L c f c', convert L c f = Ok c' <->
  exists k s c1, form f k s /\ key_converted L k c c1 /\ sig_converted L s c1 c'.
Proof. exact convert_iff. Qed.
Print Assumptions C123_convert.
Example C123_convert_some : exists c', convert L0 sha256c4 "Form2" = Ok c' /\ get_form L0 c' = Ok "Form2" /\ c_sig c' = c_sig sha256c4.
Proof. eexists. split; [vm_compute; reflexivity|]. split; vm_compute; reflexivity. Qed.
Print Assumptions C123_convert_some.
Theorem C123_other_form : forall L c f, (forall k s, ~ form f k s) -> convert L c f = Err EValueError.
Proof. exact convert_invalid. Qed.
Print Assumptions C123_other_form.
Example C123_other_form_some : (forall k s, ~ form "form4" k s) /\ convert L0 sha256c4 "form4" = Err EValueError.
Proof. split; [|reflexivity]. intros k s [(H & _)|[(H & _)|[(H & _)|(H & _)]]]; discriminate H. Qed.
Print Assumptions C123_other_form_some.
(** The form that is told: that of the last extension of each type, if all of them are decoded. *)
Theorem C123_form : forall L c f, get_form L c = Ok f <->
  all_decoded L (exts c) KEY_EXT /\ all_decoded L (exts c) SIG_EXT
  /\ exists k s, last_alt L (exts c) KEY_EXT k /\ last_alt L (exts c) SIG_EXT s /\ form f (a_by k) (a_by s).
Proof. exact get_form_iff. Qed.
Print Assumptions C123_form.
Example C123_form_some : get_form L0 sha256c4 = Ok "Form4" /\ get_form L0 sha256c1 = Ok "Form1" /\ get_form L0 issuer_plain = Err EValueError.
Proof. repeat split; vm_compute; reflexivity. Qed.
Print Assumptions C123_form_some.
(** What is converted has the form, if there is one extension of each type. *)
Theorem C123_converted : forall L c f c', sun_laws L -> once KEY_EXT (exts c) -> once SIG_EXT (exts c) -> convert L c f = Ok c' -> get_form L c' = Ok f.
Proof. exact converted_form. Qed.
Print Assumptions C123_converted.
Example C123_converted_some : sun_laws L0 /\ once KEY_EXT (exts sha256c1) /\ once SIG_EXT (exts sha256c1) /\ exists c', convert L0 sha256c1 "Form3" = Ok c'.
Proof.
  split; [apply sun_ok|]. split; [|split; [|eexists; vm_compute; reflexivity]].
  - exists [usage]. eexists _, _. split; [vm_compute; reflexivity|]. split; [reflexivity|]. split; apply get_extension_none; vm_compute; reflexivity.
  - eexists [_; _], _, []. split; [vm_compute; reflexivity|]. split; [reflexivity|]. split; apply get_extension_none; vm_compute; reflexivity.
Qed.
Print Assumptions C123_converted_some.
(** If the key and the signature are at their locations, every form can be had from every other, and back. *)
Theorem C123_round_trip : forall L c k kn kloc kv s g sn sloc sv f k' s',
  sun_laws L -> own_encoding L k -> good_name kn -> good_name sn -> served L k kloc s sloc ->
  carries L c k kn kloc kv s g sn sloc sv -> form f k' s' ->
  exists c', convert L c f = Ok c' /\ carries L c' k kn kloc k' s g sn sloc s' /\ same_but_alts c c'
    /\ forall f0, form f0 kv sv -> convert L c' f0 = Ok c.
Proof. exact any_form. Qed.
Print Assumptions C123_round_trip.
Definition L0_sig : bytes := sig_of sha256c1.
Lemma L0_served : served L0 (toy_pub 3 2) "key" L0_sig "sig".
Proof. split; [discriminate|]. split; [reflexivity|]. split; [discriminate|reflexivity]. Qed.
Lemma L0_pair : exists ts own, sun_pair L0 ts (toy_pub 3 2) [30] (toy_key 1 0) (toy_key 5 2) "sha256" (Some "key") "sha256" (Some "sig") "sha256" "sha256" own [] false L0_sig sha256c4 sha256c1
  /\ ~ occurs KEY_EXT (own ++ []) /\ ~ occurs SIG_EXT (own ++ []).
Proof.
  assert (issue_template L0 (toy_spki 3 7) [30] (toy_key 1 0) (toy_key 5 2) (Some "key") (Some "sig") (Some "sha256") None false = Ok (sha256c4, sha256c1)) as H by (vm_compute; reflexivity).
  apply template_iff in H. destruct H as (k & trad & q & ts & tk & own & n & sig & K & P & T & TK & O & Hn & H).
  assert (k = toy_pub 3 7) as -> by (apply ok_inj; rewrite <- K; reflexivity).
  assert (q = toy_pub 3 2) as -> by (change (l_parts L0 (toy_pub 3 7)) with (Some (toy_pub 3 0, toy_pub 3 2)) in P; congruence).
  assert (own = [usage]) as -> by (apply ok_inj; rewrite <- O; reflexivity). apply hash_used_eq in Hn. cbn [named String.eqb] in Hn. assert (n = "sha256") as -> by exact Hn.
  exists ts, [usage]. assert (sig = L0_sig) as ->.
  { pose proof H as (a & ak & ak1 & s & sg & sa & sa1 & ta & cs & _ & _ & _ & _ & _ & _ & _ & W1 & _ & _ & _ & c' & _ & Y). apply with_first_is in Y.
    destruct W1 as (_ & _ & _ & W & _). unfold L0_sig, sig_of. apply get_extension_some in Y. rewrite Y. cbn [x_val mk_ext].
    assert (de cd_alt (l_altenc L0 sa1) = Some (sa1, [])) as -> by exact (sun_ok _ sa1). congruence. }
  split; [exact H|]. split; apply get_extension_none; reflexivity.
Qed.
Example C123_round_trip_some : exists g, sun_laws L0 /\ own_encoding L0 (toy_pub 3 2) /\ good_name "sha256" /\ served L0 (toy_pub 3 2) "key" L0_sig "sig"
  /\ carries L0 sha256c4 (toy_pub 3 2) "sha256" "key" false L0_sig g "sha256" "sig" false.
Proof.
  destruct L0_pair as (ts & own & P & NK & NS).
  destruct (pair_carries L0 ts (toy_pub 3 2) [30] (toy_key 1 0) (toy_key 5 2) "sha256" "key" "sha256" "sig" "sha256" "sha256" own [] false L0_sig sha256c4 sha256c1 NK NS P) as (sg & _ & C & _).
  exists sg. split; [apply sun_ok|]. split; [apply SunToy.own|]. split; [exact good256|]. split; [exact L0_served|exact C].
Qed.
Print Assumptions C123_round_trip_some.
(** Names that do. *)
Theorem C123_names : Forall good_name ["sha1"; "sha224"; "sha256"; "sha384"; "sha512"; "sha3_224"; "sha3_256"; "sha3_384"; "sha3_512"; "shake128"; "shake256"].
Proof. repeat constructor; try discriminate; eexists _, _; repeat split. Qed.
Print Assumptions C123_names.
(** The certificate of a Form4 certificate in a list: the first one whose signature is there by value, if it is converted
    to the one given. *)
Theorem C123_contains : forall L c4 cs c, contains_form L c4 cs = Ok c <->
  (exists p q, cs = p ++ c :: q /\ (forall x, In x p -> sig_by_reference L x) /\ sig_by_value L c) /\ convert L c "Form4" = Ok c4.
Proof. exact contains_form_iff. Qed.
Print Assumptions C123_contains.
Example C123_contains_some : contains_form L0 sha256c4 [issuer_plain; sha256c4; sha256c1] = Ok sha256c1.
Proof. vm_compute. reflexivity. Qed.
Print Assumptions C123_contains_some.
(** Both extensions are there, not critical and without trailing data. *)
Theorem C123_has_extensions : forall L c, contains_extensions L c = Ok tt <->
  (exists e a, first_is (exts c) KEY_EXT e /\ x_crit e = false /\ l_altdec L (x_val e) = Some (a, []))
  /\ (exists e a, first_is (exts c) SIG_EXT e /\ x_crit e = false /\ l_altdec L (x_val e) = Some (a, [])).
Proof. exact contains_iff. Qed.
Print Assumptions C123_has_extensions.
Example C123_has_extensions_some : contains_extensions L0 sha256c4 = Ok tt /\ contains_extensions L0 issuer_plain = Err EValueError.
Proof. split; vm_compute; reflexivity. Qed.
Print Assumptions C123_has_extensions_some.
(** Finding: converting to a value does not check the hash: what is at the locations now is put into the certificate,
    whatever it is. Converting back gives another certificate then. *)
Definition moved : lib := sun [("key", der (toy_pub 66 2)); ("sig", [66])].
Theorem C123_hash_checked_refuted : ~ (forall L c c1 c4, sun_laws L -> convert L c "Form1" = Ok c1 -> get_form L c = Ok "Form4" -> convert L c1 "Form4" = Ok c4 -> c4 = c).
Proof.
  intros H. set (c1 := the_cert (convert moved sha256c4 "Form1")). set (c4 := the_cert (convert moved c1 "Form4")).
  assert (convert moved sha256c4 "Form1" = Ok c1) as H1 by (vm_compute; reflexivity). assert (convert moved c1 "Form4" = Ok c4) as H2 by (vm_compute; reflexivity).
  assert (get_form moved sha256c4 = Ok "Form4") as H3 by (vm_compute; reflexivity). assert (cert_eqb c4 sha256c4 = false) as H4 by (vm_compute; reflexivity).
  pose proof (H moved sha256c4 c1 c4 (sun_ok _) H1 H3 H2) as E. rewrite E in H4. rewrite (proj2 (cert_eqb_iff _ _) eq_refl) in H4. discriminate H4.
Qed.
Print Assumptions C123_hash_checked_refuted.
(** Finding: only the first certificate with a signature by value is considered. *)
Theorem C123_contains_any_refuted : ~ (forall L c4 cs c, In c cs -> sig_by_value L c -> convert L c "Form4" = Ok c4 -> exists c', contains_form L c4 cs = Ok c').
Proof.
  intros H. assert (In sha256c1 [c1_of 7 (Some "sha512") false; sha256c1]) as I by (right; left; reflexivity).
  assert (sig_by_value L0 sha256c1) as V by (apply (by_value_iff L0 _ true); vm_compute; reflexivity).
  destruct (H L0 sha256c4 _ _ I V ltac:(vm_compute; reflexivity)) as (c' & Q). vm_compute in Q. discriminate Q.
Qed.
Print Assumptions C123_contains_any_refuted.
(** Finding: with two extensions of a type the form that is told is that of the last one and the one that is converted is
    the first: what was converted does not have the form asked for. *)
Definition twice : cert := setx sha256c4 (exts sha256c1 ++ exts sha256c4).
Theorem C123_converted_refuted : ~ (forall L c f c', sun_laws L -> convert L c f = Ok c' -> get_form L c' = Ok f).
Proof.
  intros H. pose proof (H L0 twice "Form1" _ (sun_ok _) ltac:(vm_compute; reflexivity)) as Q. vm_compute in Q. discriminate Q.
Qed.
Print Assumptions C123_converted_refuted.

(** ** C124: verifying and issuing *)

Theorem C124_key : forall L c k, validate_key L c = Ok k <-> key_valid L c k.
Proof. exact validate_key_iff. Qed.
Print Assumptions C124_key.
Example C124_key_some : validate_key L0 sha256c4 = Ok (toy_pub 3 2) /\ validate_key L0 sha256c1 = Err EValueError /\ validate_key moved sha256c4 = Err EValueError.
Proof. repeat split; vm_compute; reflexivity. Qed.
Print Assumptions C124_key_some.
Theorem C124_signature : forall L c k given, fst (validate_sig L c k given) = Ok tt <-> sig_valid L c k given.
Proof. exact validate_sig_iff. Qed.
Print Assumptions C124_signature.
Example C124_signature_some : fst (validate_sig L0 sha256c4 (toy_pub 5 2) None) = Ok tt /\ fst (validate_sig L0 sha256c4 (toy_pub 6 2) None) = Err EInvalidSignature
  /\ fst (validate_sig moved sha256c4 (toy_pub 5 2) None) = Err EValueError.
Proof. repeat split; vm_compute; reflexivity. Qed.
Print Assumptions C124_signature_some.
(** Finding: the certificate is changed, a second validation always fails. *)
Theorem C124_signature_twice : forall L c k given k' given', fst (validate_sig L c k given) = Ok tt ->
  snd (validate_sig L c k given) = unsigned c /\ fst (validate_sig L (snd (validate_sig L c k given)) k' given') = Err EValueError.
Proof. exact validate_sig_once. Qed.
Print Assumptions C124_signature_twice.
Example C124_signature_twice_some : fst (validate_sig L0 sha256c4 (toy_pub 5 2) (Some L0_sig)) = Ok tt.
Proof. vm_compute. reflexivity. Qed.
Print Assumptions C124_signature_twice_some.
(** A certificate is accepted exactly if, in Form4, the issuer signed it, its key extension is valid and the alternative key
    of the issuer signed it. *)
Theorem C124_verify : forall L c issuer alt_key check others, verify_sun L c issuer alt_key check others = Ok tt <->
  exists c4 k q, convert L c "Form4" = Ok c4 /\ signed_by L c4 issuer
    /\ (alt_key = Some k \/ (alt_key = None /\ alt_key_of L issuer others k)) /\ key_valid L c4 q /\ (check = true -> sig_valid L c4 k None).
Proof. exact verify_sun_iff. Qed.
Print Assumptions C124_verify.
Example C124_verify_some : verify_sun L0 sha256c1 issuer1 None true None = Ok tt /\ verify_sun L0 sha256c1 issuer_plain None true None = Err EValueError.
Proof. split; vm_compute; reflexivity. Qed.
Print Assumptions C124_verify_some.
(** What is issued from a template: both certificates of a pair. *)
Theorem C124_template : forall L s rest ca altk kloc sloc h given bad c4 c1, issue_template L s rest ca altk kloc sloc h given bad = Ok (c4, c1) <->
  exists k trad q ts tk own n sig, l_load (l_cat L) s = Ok k /\ l_parts L k = Some (trad, q) /\ l_spki (l_cat L) trad = Ok ts
    /\ l_load (l_cat L) ts = Ok tk /\ l_extensions L tk = Ok own /\ hash_used L h k n
    /\ sun_pair L ts q rest ca altk n kloc n sloc "sha256" n (own ++ exts_of given) [] bad sig c4 c1.
Proof. exact template_iff. Qed.
Print Assumptions C124_template.
Example C124_template_some : issue 7 None false = Ok (sha256c4, sha256c1) /\ issue 2 None false = Err EValueError.
Proof. split; vm_compute; reflexivity. Qed.
Print Assumptions C124_template_some.
(** What is issued from a request: a pair, too. *)
Theorem C124_request : forall L s so attrs rest ca altk h given c4 c1, issue_csr L s so attrs rest ca altk h given = Ok (c4, c1) ->
  exists k trad q ts a kn kloc sh sn sloc sig, l_load (l_cat L) s = Ok k /\ l_composite L k = true /\ l_parts L k = Some (trad, q) /\ l_spki (l_cat L) trad = Ok ts
    /\ attr_is attrs "id_altSubPubKeyHashAlgAttr" (alg_in L) (Some a) /\ get_hash_from_oid (g_oid a) false = Ok (Some kn)
    /\ attr_is attrs "id_altSubPubKeyLocAttr" (text_in L) kloc
    /\ attr_is attrs "id_altSigValueHashAlgAttr" (alg_in L) sh
    /\ (match sh with
        | Some b => get_hash_from_oid (g_oid b) false = Ok (Some sn)
        | None => lookup so COMPOSITE_SIG_PREHASH_OID_2_HASH = Some sn \/ (lookup so COMPOSITE_SIG_PREHASH_OID_2_HASH = None /\ sn = h)
        end)
    /\ attr_is attrs "id_altSigValueLocAttr" (text_in L) sloc
    /\ sun_pair L ts q rest ca altk kn kloc sn sloc h h [] (exts_of given) false sig c4 c1.
Proof. exact csr_form. Qed.
Print Assumptions C124_request.
Definition key_attr : ProtTab.oid * bytes := ("id_altSubPubKeyHashAlgAttr", l_algenc toy {| g_oid := "id_sha256"; g_par := None |}).
Definition loc_attrs : list (ProtTab.oid * bytes) := [("id_altSubPubKeyLocAttr", sb "key"); ("id_altSigValueLocAttr", sb "sig")].
Definition request (attrs : list (ProtTab.oid * bytes)) : result (cert * cert) :=
  issue_csr L0 (toy_spki 3 7) "comp:composite-sig-ml-dsa-44-rsa2048" attrs [31] (toy_key 1 0) (toy_key 5 2) "sha512" (Some [usage]).
Definition csr_c4 : cert := fst (the_pair (request (key_attr :: loc_attrs))).
Definition csr_c1 : cert := snd (the_pair (request (key_attr :: loc_attrs))).
Definition L1 : lib := sun [("key", der (toy_pub 3 2)); ("sig", sig_of csr_c1)].
Example C124_request_some : request (key_attr :: loc_attrs) = Ok (csr_c4, csr_c1) /\ verify_sun L1 csr_c4 issuer1 None true None = Ok tt.
Proof. split; vm_compute; reflexivity. Qed.
Print Assumptions C124_request_some.
(** Finding: without the attribute for the hash of the key no certificate is issued. *)
Theorem C124_request_default_refuted : forall L s so attrs rest ca altk h given, ~ In "id_altSubPubKeyHashAlgAttr" (map fst attrs) ->
  exists e, issue_csr L s so attrs rest ca altk h given = Err e.
Proof. exact csr_needs_attribute. Qed.
Print Assumptions C124_request_default_refuted.
Example C124_request_default_some : request loc_attrs = Err EValueError /\ ~ In "id_altSubPubKeyHashAlgAttr" (map fst loc_attrs).
Proof. split; [vm_compute; reflexivity|]. intros [H|[H|[]]]; discriminate H. Qed.
Print Assumptions C124_request_default_some.
(** A pair that is issued is accepted in both forms, and each is converted to the other, if the algorithm that is written
    into the certificate is the one the CA signed with. *)
Theorem C124_issued_verified : forall L ts q rest ca altk kn kl sn sl written used before after sig c4 c1,
  sun_laws L -> own_encoding L q -> good_name kn -> good_name sn -> served L q kl sig sl ->
  ~ occurs KEY_EXT (before ++ after) -> ~ occurs SIG_EXT (before ++ after) ->
  sun_pair L ts q rest ca altk kn (Some kl) sn (Some sl) written used before after false sig c4 c1 ->
  (convert L c1 "Form4" = Ok c4 /\ convert L c4 "Form1" = Ok c1 /\ convert L c4 "Form4" = Ok c4) /\
  forall issuer ik k others, l_load (l_cat L) (t_spki (c_tbs issuer)) = Ok ik -> l_verifies (l_cat L) ik = true ->
    verified L ca written used ik -> verified L altk sn sn k ->
    verify_sun L c4 issuer (Some k) true others = Ok tt /\ verify_sun L c1 issuer (Some k) true others = Ok tt.
Proof.
  intros L ts q rest ca altk kn kl sn sl written used before after sig c4 c1 Q O G1 G2 S N1 N2 P. split.
  - exact (pair_converts L ts q rest ca altk kn kl sn sl written used before after false sig c4 c1 Q O G1 G2 S N1 N2 P).
  - intros issuer ik k others H1 H2 H3 H4. exact (pair_verified L ts q rest ca altk kn kl sn sl written used before after false sig c4 c1 Q O G1 G2 S N1 N2 P issuer ik k others eq_refl H1 H2 H3 H4).
Qed.
Print Assumptions C124_issued_verified.
Lemma sun_alt st n h k : k = toy_pub n 2 -> verified (sun st) (toy_key n 2) h h k.
Proof. intros -> a d s H1 H2. exact (toy_sound_pq_alg n (Some h) false a d s H1 H2). Qed.
Lemma sun_ca st n h : verified (sun st) (toy_key n 0) h h (toy_pub n 0).
Proof. intros a d s H1 H2. exact (toy_sound_rsa_alg n h a d s H1 H2). Qed.
Example C124_issued_verified_some : exists ts own, sun_laws L0 /\ own_encoding L0 (toy_pub 3 2) /\ good_name "sha256" /\ served L0 (toy_pub 3 2) "key" L0_sig "sig"
  /\ ~ occurs KEY_EXT (own ++ []) /\ ~ occurs SIG_EXT (own ++ [])
  /\ sun_pair L0 ts (toy_pub 3 2) [30] (toy_key 1 0) (toy_key 5 2) "sha256" (Some "key") "sha256" (Some "sig") "sha256" "sha256" own [] false L0_sig sha256c4 sha256c1
  /\ verified L0 (toy_key 1 0) "sha256" "sha256" (toy_pub 1 0) /\ verified L0 (toy_key 5 2) "sha256" "sha256" (toy_pub 5 2).
Proof.
  destruct L0_pair as (ts & own & P & NK & NS). exists ts, own. split; [apply sun_ok|]. split; [apply SunToy.own|]. split; [exact good256|]. split; [exact L0_served|]. split; [exact NK|]. split; [exact NS|].
  split; [exact P|]. split; [apply sun_ca|apply sun_alt; reflexivity].
Qed.
Print Assumptions C124_issued_verified_some.
(** A pair that is issued with a bad alternative signature is refused, if such a signature is not verified. *)
Theorem C124_bad_refused : forall L ts q rest ca altk kn kl sn sl written used before after sig c4 c1 issuer k others,
  sun_laws L -> own_encoding L q -> good_name kn -> good_name sn -> served L q kl sig sl ->
  ~ occurs KEY_EXT (before ++ after) -> ~ occurs SIG_EXT (before ++ after) ->
  sun_pair L ts q rest ca altk kn (Some kl) sn (Some sl) written used before after true sig c4 c1 ->
  (forall a d s s', l_sigalg (l_cat L) altk (Some sn) false = Ok a -> l_sign (l_cat L) altk d (Some sn) false = Ok s -> manipulate_first_byte s = Ok s' ->
     l_verify_alg (l_cat L) k a d s' <> Ok tt) ->
  verify_sun L c4 issuer (Some k) true others <> Ok tt /\ verify_sun L c1 issuer (Some k) true others <> Ok tt.
Proof.
  intros L ts q rest ca altk kn kl sn sl written used before after sig c4 c1 issuer k others Q O G1 G2 S N1 N2 P H.
  exact (pair_spoilt L ts q rest ca altk kn kl sn sl written used before after true sig c4 c1 Q O G1 G2 S N1 N2 P issuer k others eq_refl H).
Qed.
Print Assumptions C124_bad_refused.
Example C124_bad_refused_some : let L := sun (st 7 (Some "sha256") true) in
  verify_sun L (c4_of 7 (Some "sha256") true) issuer1 (Some (toy_pub 5 2)) true None = Err EInvalidSignature
  /\ verify_sun L (c4_of 7 (Some "sha256") true) issuer1 (Some (toy_pub 5 2)) false None = Ok tt.
Proof. split; vm_compute; reflexivity. Qed.
Print Assumptions C124_bad_refused_some.
(** Finding: a template's certificate names the algorithm with "sha256" but is signed with another hash, if one is asked for
    or the composite algorithm has one: it does not verify. *)
Theorem C124_template_verified_refuted : ~ (forall L s rest ca altk kl sl h c4 c1 issuer ik k,
  sun_laws L -> issue_template L s rest ca altk (Some kl) (Some sl) h None false = Ok (c4, c1) ->
  (exists sig q, own_encoding L q /\ served L q kl sig sl /\ convert L c4 "Form1" = Ok c1) ->
  l_load (l_cat L) (t_spki (c_tbs issuer)) = Ok ik -> l_verifies (l_cat L) ik = true ->
  (forall n, verified L ca n n ik) -> (forall n, verified L altk n n k) -> verify_sun L c4 issuer (Some k) true None = Ok tt).
Proof.
  intros H. set (L := sun (st 8 None false)).
  assert (verify_sun L (c4_of 8 None false) issuer_plain (Some (toy_pub 5 2)) true None = Ok tt) as Q.
  { apply (H L (toy_spki 3 8) [30] (toy_key 1 0) (toy_key 5 2) "key" "sig" None (c4_of 8 None false) (c1_of 8 None false) issuer_plain (toy_pub 1 0) (toy_pub 5 2)).
    - apply sun_ok.
    - vm_compute. reflexivity.
    - exists (sig_of (c1_of 8 None false)), (toy_pub 3 2). split; [apply SunToy.own|]. split; [|vm_compute; reflexivity]. split; [discriminate|]. split; [reflexivity|]. split; [discriminate|reflexivity].
    - reflexivity.
    - reflexivity.
    - intros n. apply sun_ca.
    - intros n. apply sun_alt. reflexivity. }
  vm_compute in Q. discriminate Q.
Qed.
Print Assumptions C124_template_verified_refuted.

(** ** C125: the alternative key of a certificate *)

Theorem C125_key : forall L c others k, extract_alt_key L c others = Ok (Some k) <-> alt_key_of L c others k.
Proof. exact extract_some. Qed.
Print Assumptions C125_key.
Definition delta_ext : ext := {| x_id := DELTA; x_crit := false; x_val := [] |}.
Definition related_ext : ext := {| x_id := RELATED; x_crit := false; x_val := [] |}.
Definition sia_ext (v : bytes) : ext := {| x_id := SIA; x_crit := false; x_val := v |}.
Definition with_exts_ (l : list ext) : cert := mk_cert 1 (toy_spki 1 0) (Some l).
Example C125_key_some : extract_alt_key L0 sha256c4 None = Ok (Some (toy_pub 3 2)) /\ extract_alt_key L0 issuer1 None = Ok (Some (toy_pub 5 2))
  /\ extract_alt_key L0 (with_exts_ [related_ext; delta_ext]) (Some [mk_cert 2 (toy_spki 2 2) None]) = Ok (Some (toy_pub 2 2))
  /\ extract_alt_key L0 (with_exts_ [related_ext; delta_ext]) None = Ok (Some (toy_pub 4 2))
  /\ extract_alt_key L0 (with_exts_ [delta_ext; sia_ext [77]]) None = Ok (Some (toy_pub 77 2))
  /\ extract_alt_key L0 (mk_cert 1 {| k_alg := {| g_oid := "comp:composite-sig-ml-dsa-44-rsa2048"; g_par := None |}; k_bits := [8; 7] |} None) None = Ok (Some (toy_pub 8 2)).
Proof. repeat split; vm_compute; reflexivity. Qed.
Print Assumptions C125_key_some.
Theorem C125_none : forall L c others, extract_alt_key L c others = Ok None <->
  discovery L c None /\ ~ occurs KEY_EXT (exts c) /\ (~ occurs RELATED (exts c) \/ others = None) /\ ~ occurs ALT_SPKI (exts c) /\ ~ occurs DELTA (exts c) /\ ~ composite_key c.
Proof. exact extract_none. Qed.
Print Assumptions C125_none.
Example C125_none_some : extract_alt_key L0 (with_exts_ [related_ext; sia_ext []]) None = Ok None.
Proof. vm_compute. reflexivity. Qed.
Print Assumptions C125_none_some.
(** The key extension of a Sun certificate, by value or by reference. *)
Theorem C125_sun_key : forall L c k, alt_pub_key L (exts c) = Ok (Some k) <-> sun_key L c k.
Proof. exact alt_pub_key_iff. Qed.
Print Assumptions C125_sun_key.
Example C125_sun_key_some : alt_pub_key L0 (exts sha256c4) = Ok (Some (toy_pub 3 2)) /\ alt_pub_key (sun []) (exts sha256c1) = Ok (Some (toy_pub 3 2)) /\ alt_pub_key L0 [] = Ok None.
Proof. repeat split; vm_compute; reflexivity. Qed.
Print Assumptions C125_sun_key_some.
(** Finding: a key by reference is used without comparing its hash with the one in the certificate. *)
Theorem C125_reference_checked_refuted : ~ (forall L c k, sun_laws L -> get_form L c = Ok "Form4" -> extract_alt_key L c None = Ok (Some k) -> exists q, validate_key L c = Ok q).
Proof.
  intros H. destruct (H moved sha256c4 (toy_pub 66 2) (sun_ok _) ltac:(vm_compute; reflexivity) ltac:(vm_compute; reflexivity)) as (q & Q). vm_compute in Q. discriminate Q.
Qed.
Print Assumptions C125_reference_checked_refuted.
(** Finding: a subjectInfoAccess extension that cannot be read, other than by a ValueError, hides the key of the certificate. *)
Theorem C125_access_ignored_refuted : ~ (forall L c k e, sun_key L c k -> extract_alt_key L c None <> Err e).
Proof.
  intros H. set (c := setx sha256c4 (sia_ext [9] :: exts sha256c4)).
  assert (sun_key L0 c (toy_pub 3 2)) as K by (apply alt_pub_key_iff; vm_compute; reflexivity). apply (H L0 c _ ETypeError K). vm_compute. reflexivity.
Qed.
Print Assumptions C125_access_ignored_refuted.
(** A key that is fetched and cannot be decoded, or is followed by something, is refused. *)
Theorem C125_malformed : forall L b, (l_spkidec (l_cat L) b = None -> process_key L (Some b) = Err EPyAsn1)
  /\ (forall s x r, l_spkidec (l_cat L) b = Some (s, x :: r) -> process_key L (Some b) = Err EValueError).
Proof. intros L b. unfold process_key. split; [intros ->; reflexivity|]. intros s x r ->. reflexivity. Qed.
Print Assumptions C125_malformed.
