(** Catalyst certificates and revocation lists (C121, C122). *)
From Coq Require Import String Ascii.
From Verif Require Import Prelude ProtTab CatModel CatSpec CatProofs CatCrl CatToy.
Open Scope string_scope.
Open Scope Z_scope.
Open Scope list_scope.

(** ** C121: certificates *)

(** The values are returned exactly if all three extensions are there, are decoded and have the algorithm demanded. *)
Theorem C121_extensions : forall L c must v, validate_extensions L c must = Ok (Some v) <->
  exists l, t_exts (c_tbs c) = Some l /\ has_values L l v /\ demanded L (v_alg v) must.
Proof. exact extensions_iff. Qed.
Print Assumptions C121_extensions.
Example C121_extensions_some : exists v, validate_extensions toy cert7 (Some "ml-dsa-44") = Ok (Some v) /\ v_spki v = toy_spki 6 2 /\
  validate_extensions toy cert7 (Some "pq:ml-dsa-44.") = Err EBadAlg /\ validate_extensions toy cert7 (Some "rsa") = Err EKeyError.
Proof. eexists. split; [vm_compute; reflexivity|]. repeat split; vm_compute; reflexivity. Qed.
Print Assumptions C121_extensions_some.
(** A certificate without any of them is not a catalyst certificate. *)
Theorem C121_none : forall L c must, validate_extensions L c must = Ok None <->
  ~ occurs ALT_SPKI (exts_of (t_exts (c_tbs c))) /\ ~ occurs ALT_ALG (exts_of (t_exts (c_tbs c))) /\ ~ occurs ALT_SIG (exts_of (t_exts (c_tbs c))).
Proof. exact extensions_none. Qed.
Print Assumptions C121_none.
Example C121_none_some : validate_extensions toy plain7 None = Ok None /\ t_exts (c_tbs plain7) <> None.
Proof. split; [vm_compute; reflexivity | discriminate]. Qed.
Print Assumptions C121_none_some.
(** Some but not all of them: a ValueError, and never otherwise. *)
Theorem C121_some : forall L c must, let l := exts_of (t_exts (c_tbs c)) in
  validate_extensions L c must = Err EValueError <->
  (occurs ALT_SPKI l \/ occurs ALT_ALG l \/ occurs ALT_SIG l) /\ ~ (occurs ALT_SPKI l /\ occurs ALT_ALG l /\ occurs ALT_SIG l).
Proof. exact extensions_some. Qed.
Print Assumptions C121_some.
Example C121_some_some : validate_extensions toy (mk_cert 7 (toy_spki 7 0) (Some claim_exts)) None = Err EValueError.
Proof. vm_compute. reflexivity. Qed.
Print Assumptions C121_some_some.
(** Values that cannot be decoded: BadAsn1Data. *)
Theorem C121_malformed : forall L c must l ek ea es, t_exts (c_tbs c) = Some l ->
  last_is l ALT_SPKI ek -> last_is l ALT_ALG ea -> last_is l ALT_SIG es ->
  (l_spkidec L (x_val ek) = None \/ l_algdec L (x_val ea) = None \/ l_bitsdec L (x_val es) = None
   \/ exists s z r, l_bitsdec L (x_val es) = Some (s, z :: r)) -> validate_extensions L c must = Err EBadAsn1Data.
Proof. exact extensions_malformed. Qed.
Print Assumptions C121_malformed.
(** The keyword for the algorithm: a key takes precedence over an identifier. *)
Theorem C121_algorithm : forall L a crit h pss k e, prepare_alt_alg L a crit h pss k = Ok e
  <-> exists x, (match k with Some k => l_sigalg L k h pss = Ok x | None => a = Some x end) /\ e = {| x_id := ALT_ALG; x_crit := crit; x_val := l_algenc L x |}.
Proof. exact alt_alg_iff. Qed.
Print Assumptions C121_algorithm.
(** Accepted exactly if both signatures are valid. *)
Theorem C121_verify : forall L c issuer key must, verify_catalyst L c issuer key must = Ok tt <->
  exists l v k, t_exts (c_tbs c) = Some l /\ has_values L l v /\ demanded L (v_alg v) must /\ signer_key L c issuer key k /\ catalyst_valid L c k v.
Proof. exact verify_iff. Qed.
Print Assumptions C121_verify.
Example C121_verify_some : verify_catalyst toy cert7 (Some issuer1) None (Some "ml-dsa-44") = Ok tt /\
  verify_catalyst toy cert7 None None None = Err EInvalidSignature.
Proof. split; vm_compute; reflexivity. Qed.
Print Assumptions C121_verify_some.
(** What is covered by the alternative signature. *)
Theorem C121_covers : forall L c c', (forall p p', l_preenc L p = l_preenc L p' -> p = p') ->
  (covered L c = covered L c' <->
   t_rest (c_tbs c) = t_rest (c_tbs c') /\ t_spki (c_tbs c) = t_spki (c_tbs c') /\
   without ALT_SIG (exts_of (t_exts (c_tbs c))) = without ALT_SIG (exts_of (t_exts (c_tbs c')))).
Proof. exact covers. Qed.
Print Assumptions C121_covers.
Example C121_covers_some : covered toy cert7 <> covered toy claim7 /\ without ALT_SIG (exts_of (t_exts (c_tbs cert7))) <> exts_of (t_exts (c_tbs cert7)).
Proof. split; vm_compute; discriminate. Qed.
Print Assumptions C121_covers_some.
(** What signing does: three extensions are added, both algorithms are set, and both signatures are made. *)
Theorem C121_signed : forall L c pq trad pqh h pss crit bad c', sign_cert_catalyst L c pq trad pqh h pss crit bad = Ok c' <->
  exists aa a sk s s', l_sigalg L pq pqh pss = Ok aa /\ l_sigalg L trad h pss = Ok a /\ l_spki L (l_pub L pq) = Ok sk /\
    l_sign L pq (covered L c') pqh false = Ok s /\ (if bad then l_spoil L s pq = Ok s' else s' = s) /\
    l_sign L trad (l_tbsenc L (c_tbs c')) h pss = Ok (c_sig c') /\
    t_rest (c_tbs c') = t_rest (c_tbs c) /\ t_spki (c_tbs c') = t_spki (c_tbs c) /\ t_alg (c_tbs c') = Some a /\ c_alg c' = Some a /\
    t_exts (c_tbs c') = Some (exts_of (t_exts (c_tbs c)) ++
      [{| x_id := ALT_ALG; x_crit := crit; x_val := l_algenc L aa |};
       {| x_id := ALT_SPKI; x_crit := crit; x_val := l_spkienc L sk |};
       {| x_id := ALT_SIG; x_crit := crit; x_val := l_bitsenc L s' |}]).
Proof. exact sign_iff. Qed.
Print Assumptions C121_signed.
Example C121_signed_some : sign_cert_catalyst toy plain7 (toy_key 6 2) (toy_key 1 0) None sha256 false false false = Ok cert7.
Proof. vm_compute. reflexivity. Qed.
Print Assumptions C121_signed_some.
(** What is signed is accepted, whatever extensions the certificate had before. *)
Theorem C121_round_trip : forall L c pq trad pqh h pss crit c' issuer key must, cat_laws L ->
  sound_hash L pq pqh pss -> sound_alg L trad h pss pss -> l_verifies L (l_pub L pq) = true -> l_verifies L (l_pub L trad) = true ->
  sign_cert_catalyst L c pq trad pqh h pss crit false = Ok c' -> signer_key L c' issuer key (l_pub L trad) ->
  (forall a, l_sigalg L pq pqh pss = Ok a -> demanded L a must) ->
  verify_catalyst L c' issuer key must = Ok tt.
Proof. exact round_trip. Qed.
Print Assumptions C121_round_trip.
Example C121_round_trip_some : cat_laws toy /\ sound_hash toy (toy_key 6 2) None false /\ sound_alg toy (toy_key 1 0) sha256 false false /\
  sign_cert_catalyst toy plain7 (toy_key 6 2) (toy_key 1 0) None sha256 false false false = Ok cert7 /\
  signer_key toy cert7 (Some issuer1) None (l_pub toy (toy_key 1 0)).
Proof.
  split; [apply toy_laws|]. split; [apply toy_sound_pq|]. split; [apply toy_sound_rsa_alg|]. split; [vm_compute; reflexivity | vm_compute; reflexivity].
Qed.
Print Assumptions C121_round_trip_some.
(** A certificate made with a bad alternative signature is refused. *)
Theorem C121_bad : forall L c pq trad pqh h pss crit c' issuer key must, cat_laws L ->
  spoils L pq pqh pss -> sign_cert_catalyst L c pq trad pqh h pss crit true = Ok c' -> verify_catalyst L c' issuer key must <> Ok tt.
Proof. exact bad_refused. Qed.
Print Assumptions C121_bad.
Example C121_bad_some : spoils toy (toy_key 6 2) None false /\
  verify_catalyst toy (the_cert (sign_cert_catalyst toy plain7 (toy_key 6 2) (toy_key 1 0) None sha256 false false true)) (Some issuer1) None None = Err EInvalidSignature.
Proof. split; [apply toy_spoils | vm_compute; reflexivity]. Qed.
Print Assumptions C121_bad_some.
(** Loading the alternative key alone. *)
Theorem C121_load : forall L l k, load_catalyst_key L l = Ok k <->
  exists e s, first_is l ALT_SPKI e /\ l_spkidec L (x_val e) = Some (s, []) /\ l_load L s = Ok k.
Proof. exact load_key_iff. Qed.
Print Assumptions C121_load.
Example C121_load_some : load_catalyst_key toy (exts_of (t_exts (c_tbs issuer1))) = Ok (toy_pub 5 2).
Proof. vm_compute. reflexivity. Qed.
Print Assumptions C121_load_some.
(** The alternative signature need not be one of the issuer: it is verified with the key in the certificate itself. *)
Theorem C121_issuer_refuted : ~ (forall L c i l v q, cat_laws L -> verify_catalyst L c (Some i) None None = Ok tt ->
  t_exts (c_tbs c) = Some l -> has_values L l v -> load_catalyst_key L (exts_of (t_exts (c_tbs i))) = Ok q ->
  exists h, l_verify_hash L q h (covered L c) (v_sig v) = Ok tt).
Proof.
  intros H. assert (validate_extensions toy cert7 None = Ok (Some {| v_sig := toy_sig [6; 2] None false (covered toy cert7); v_spki := toy_spki 6 2; v_alg := {| g_oid := "pq:ml-dsa-44"; g_par := None |} |})) as V by (vm_compute; reflexivity).
  apply extensions_iff in V. destruct V as (l & E & V & _).
  destruct (H toy cert7 issuer1 l _ (toy_pub 5 2) toy_laws ltac:(vm_compute; reflexivity) E V ltac:(vm_compute; reflexivity)) as (h & N).
  cbn [v_sig toy l_verify_hash toy_pub u_id] in N. unfold toy_sig in N. cbn in N. discriminate N.
Qed.
Print Assumptions C121_issuer_refuted.
(** Two functions may read different alternative keys from one certificate. *)
Theorem C121_readers_refuted : ~ (forall L c issuer l v q k, cat_laws L -> verify_catalyst L c issuer None None = Ok tt ->
  t_exts (c_tbs c) = Some l -> has_values L l v -> l_load L (v_spki v) = Ok q -> load_catalyst_key L l = Ok k -> k = q).
Proof.
  intros H. assert (exists v, validate_extensions toy twice7 None = Ok (Some v) /\ v_spki v = toy_spki 6 2) as (v & V & S) by (eexists; split; [vm_compute; reflexivity | reflexivity]).
  apply extensions_iff in V. destruct V as (l & E & V & _).
  assert (load_catalyst_key toy l = Ok (toy_pub 5 2)) as K by (assert (Some l = t_exts (c_tbs twice7)) as Q by congruence; vm_compute in Q; injection Q as ->; vm_compute; reflexivity).
  assert (l_load toy (v_spki v) = Ok (toy_pub 6 2)) as Q by (rewrite S; reflexivity).
  pose proof (H toy twice7 (Some issuer1) l v (toy_pub 6 2) (toy_pub 5 2) toy_laws ltac:(vm_compute; reflexivity) E V Q K) as N. discriminate N.
Qed.
Print Assumptions C121_readers_refuted.
(** The key followed by other data is accepted by one and refused by the other. *)
Theorem C121_trailing_refuted : ~ (forall L c issuer l, cat_laws L -> verify_catalyst L c issuer None None = Ok tt ->
  t_exts (c_tbs c) = Some l -> exists k, load_catalyst_key L l = Ok k).
Proof.
  intros H. destruct (H toy trail7 (Some issuer1) (exts_of (t_exts (c_tbs trail7))) toy_laws ltac:(vm_compute; reflexivity) ltac:(vm_compute; reflexivity)) as (k & N).
  vm_compute in N. discriminate N.
Qed.
Print Assumptions C121_trailing_refuted.
(** The algorithm demanded need not be that of the key that verifies the signature. *)
Theorem C121_algorithm_refuted : ~ (forall L c issuer l v, cat_laws L -> verify_catalyst L c issuer None (Some "falcon-512") = Ok tt ->
  t_exts (c_tbs c) = Some l -> has_values L l v -> g_oid (k_alg (v_spki v)) = "pq:falcon-512").
Proof.
  intros H. assert (exists v, validate_extensions toy claim7 None = Ok (Some v) /\ v_spki v = toy_spki 6 2) as (v & V & S) by (eexists; split; [vm_compute; reflexivity | reflexivity]).
  apply extensions_iff in V. destruct V as (l & E & V & _).
  pose proof (H toy claim7 (Some issuer1) l v toy_laws ltac:(vm_compute; reflexivity) E V) as N. rewrite S in N. discriminate N.
Qed.
Print Assumptions C121_algorithm_refuted.

(** ** C122: revocation lists *)

(** Accepted exactly if the CA signed it and either it has no extensions (and none are demanded) or it has a valid
    alternative signature. *)
Theorem C122_verify : forall L r ca alt must, fst (verify_crl L r ca alt must) = Ok tt <->
  ca_signed L r ca /\
  ((r_exts r = None /\ must = false) \/
   exists l a q s, r_exts r = Some l /\ alt_signed L l alt a q s /\ l_verify_alg L q a (crl_covered L r l) s = Ok tt).
Proof. exact crl_iff. Qed.
Print Assumptions C122_verify.
(** An alternative signature that is not valid has an exception of its own. *)
Theorem C122_invalid : forall L r ca alt must l a q s, ca_signed L r ca -> r_exts r = Some l -> alt_signed L l alt a q s ->
  l_verify_alg L q a (crl_covered L r l) s = Err EInvalidSignature -> fst (verify_crl L r ca alt must) = Err EInvalidAltSignature.
Proof. exact crl_alt_invalid. Qed.
Print Assumptions C122_invalid.
(** What signing does. *)
Theorem C122_signed : forall L r ca alt incl h ah pss crit bad badalt r', sign_crl L r ca alt incl h ah pss crit bad badalt = Ok r' <->
  exists s hh, other_or ah h hh /\ l_sigalg L ca h pss = Ok (r_alg r') /\ r_rest r' = r_rest r
    /\ match alt with
       | None => r_exts r' = r_exts r
       | Some k => crl_extended L r k incl hh pss crit badalt (r_alg r') (r_exts r')
       end
    /\ l_sign L ca (l_crlenc L (r_rest r) (r_exts r')) h false = Ok s
    /\ (if bad then l_spoil L s ca = Ok (r_sig r') else r_sig r' = s).
Proof. exact sign_crl_form. Qed.
Print Assumptions C122_signed.
(** What is signed with an alternative key is accepted: with that key, or with the key that was included. *)
Theorem C122_round_trip : forall L r ca alt incl h ah pss crit ca_info given must r', cat_laws L ->
  sound_hash L ca h pss -> l_load L ca_info = Ok (l_pub L ca) -> l_verifies L (l_pub L ca) = true ->
  sound_alg L alt (str_or ah h) pss false -> l_verifies L (l_pub L alt) = true ->
  all_whole L (exts_of (r_exts r)) -> ~ occurs ALT_SIG (exts_of (r_exts r)) ->
  (given = Some (l_pub L alt) \/ (given = None /\ incl = true /\ ~ occurs ALT_SPKI (exts_of (r_exts r)))) ->
  sign_crl L r ca (Some alt) incl h ah pss crit false false = Ok r' -> fst (verify_crl L r' ca_info given must) = Ok tt.
Proof. exact sign_crl_round_trip. Qed.
Print Assumptions C122_round_trip.
Definition list9 : crl := the_crl (sign_crl toy (crl0 (Some [number])) (toy_key 1 0) (Some (toy_key 5 2)) true sha256 None false false false false).
Example C122_verify_some : fst (verify_crl toy list9 (toy_spki 1 0) None true) = Ok tt /\
  fst (verify_crl toy list9 (toy_spki 1 0) (Some (toy_pub 6 2)) true) = Err EInvalidAltSignature /\
  sign_crl toy (crl0 (Some [number])) (toy_key 1 0) (Some (toy_key 5 2)) true sha256 None false false false false = Ok list9 /\
  sound_hash toy (toy_key 1 0) sha256 false /\ sound_alg toy (toy_key 5 2) (str_or None sha256) false false /\
  all_whole toy [number] /\ ~ occurs ALT_SIG [number] /\ ~ occurs ALT_SPKI [number].
Proof.
  repeat (split; [vm_compute; reflexivity|]). split; [apply toy_sound_rsa|]. split; [apply toy_sound_pq_alg|]. split.
  - intros e [<-|[]]. repeat split; intros Q; discriminate Q.
  - split; intros (e & [<-|[]] & Q); discriminate Q.
Qed.
Print Assumptions C122_verify_some.
(** Without an alternative key, and without extensions. *)
Theorem C122_plain : forall L r ca h pss crit ah incl ca_info given r', r_exts r = None -> sound_hash L ca h pss ->
  l_load L ca_info = Ok (l_pub L ca) -> l_verifies L (l_pub L ca) = true ->
  sign_crl L r ca None incl h ah pss crit false false = Ok r' -> fst (verify_crl L r' ca_info given false) = Ok tt.
Proof. exact sign_crl_plain. Qed.
Print Assumptions C122_plain.
Example C122_plain_some : fst (verify_crl toy (the_crl (sign_crl toy (crl0 None) (toy_key 1 0) None false sha256 None false false false false)) (toy_spki 1 0) None false) = Ok tt.
Proof. vm_compute. reflexivity. Qed.
Print Assumptions C122_plain_some.
(** A list with extensions but without an alternative signature is refused, even if none is demanded. *)
Theorem C122_extensions_refuted : forall L r ca alt must l, r_exts r = Some l -> ca_signed L r ca ->
  ~ occurs ALT_SIG l -> ~ occurs ALT_ALG l -> ~ occurs ALT_SPKI l -> fst (verify_crl L r ca alt must) = Err EValueError.
Proof. exact crl_plain_error. Qed.
Print Assumptions C122_extensions_refuted.
Example C122_extensions_some :
  let r := the_crl (sign_crl toy (crl0 (Some [number])) (toy_key 1 0) None false sha256 None false false false false) in
  r_exts r = Some [number] /\ ca_signed toy r (toy_spki 1 0) /\ fst (verify_crl toy r (toy_spki 1 0) None false) = Err EValueError.
Proof.
  cbv zeta. split; [vm_compute; reflexivity|]. split; [|vm_compute; reflexivity]. exists sha256, (toy_pub 1 0). repeat split; vm_compute; reflexivity.
Qed.
Print Assumptions C122_extensions_some.
(** A list that has been verified cannot be verified again: its alternative signature is gone. *)
Theorem C122_twice_refuted : forall L r ca alt must l, r_exts r = Some l -> fst (verify_crl L r ca alt must) = Ok tt ->
  snd (verify_crl L r ca alt must) = set_rexts r (Some (without ALT_SIG l)) /\
  forall ca' alt' must', fst (verify_crl L (snd (verify_crl L r ca alt must)) ca' alt' must') <> Ok tt.
Proof. intros L r ca alt must l X H. split; [exact (crl_after _ _ _ _ _ _ X H) | exact (crl_once _ _ _ _ _ _ X H)]. Qed.
Print Assumptions C122_twice_refuted.
Example C122_twice_some : fst (verify_crl toy (snd (verify_crl toy list9 (toy_spki 1 0) None true)) (toy_spki 1 0) None true) = Err EInvalidSignature.
Proof. vm_compute. reflexivity. Qed.
Print Assumptions C122_twice_some.
(** With RSASSA-PSS, the algorithm in the list is not that of its signature. *)
Theorem C122_pss_refuted : ~ (forall L r ca h r', cat_laws L -> sound_alg L ca h true true ->
  sign_crl L r ca None false h None true false false false = Ok r' ->
  l_verify_alg L (l_pub L ca) (r_alg r') (l_crlenc L (r_rest r') (r_exts r')) (r_sig r') = Ok tt).
Proof.
  intros H. pose proof (H toy (crl0 None) (toy_key 1 0) sha256 (the_crl (sign_crl toy (crl0 None) (toy_key 1 0) None false sha256 None true false false false)) toy_laws (toy_sound_pss 1) ltac:(vm_compute; reflexivity)) as N.
  vm_compute in N. discriminate N.
Qed.
Print Assumptions C122_pss_refuted.
