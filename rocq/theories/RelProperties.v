(** Related certificates (C126: the extension, C127: the request, C128: the certificate request) and certificate discovery
    (C129). *)
From Coq Require Import String Lia.
From Verif Require Import Prelude ProtTab CertChainModel BitModel RelModel RelSpec RelProofs RelToy.
From Verif Require SdModel ProtMac.
Open Scope string_scope.
Open Scope Z_scope.
Open Scope list_scope.

(** ** C126: the extension *)

(** Accepted exactly if the extension holds the digest of the other certificate and the usages are compatible. *)
Theorem C126_validated : forall L a r h, validate_extension L a r h = Ok tt <->
  names_cert L a h r /\ validate_ku_and_eku_related_cert (l_usages L a) (l_usages L r) = Ok tt.
Proof. exact validate_ext_iff. Qed.
Print Assumptions C126_validated.
Example C126_validated_some : validate_extension toy holder ee None = Ok tt /\ validate_extension toy holder ca None = Err EValueError
  /\ validate_extension toy ee ee None = Err EValueError.
Proof. repeat split; vm_compute; reflexivity. Qed.
Print Assumptions C126_validated_some.
(** It names one certificate. *)
Theorem C126_unique : forall L a h r r', collision_free L ->
  validate_extension L a r h = Ok tt -> validate_extension L a r' h = Ok tt -> c_der r = c_der r'.
Proof. intros L a h r r' C H H'. apply validate_ext_iff in H, H'. exact (names_unique L a h r r' C (proj1 H) (proj1 H')). Qed.
Print Assumptions C126_unique.
Example C126_unique_some : collision_free toy /\ validate_extension toy holder ee None = Ok tt.
Proof. split; [apply toy_free|vm_compute; reflexivity]. Qed.
Print Assumptions C126_unique_some.
(** What is prepared is accepted, if both certificates lead to the same hash. *)
Theorem C126_prepared : forall L r h crit e a h' n, codecs L -> (forall m x, l_hash L m x <> []) -> prepare_extension L r h crit = Ok e ->
  first_ext (l_exts L a) RELATED e -> hash_of L h r n -> hash_of L h' a n ->
  validate_ku_and_eku_related_cert (l_usages L a) (l_usages L r) = Ok tt -> validate_extension L a r h' = Ok tt.
Proof. exact prepared_validates. Qed.
Print Assumptions C126_prepared.
Example C126_prepared_some : codecs toy /\ (forall m x, l_hash toy m x <> []) /\ prepare_extension toy ee None false = Ok rel
  /\ first_ext (l_exts toy holder) RELATED rel /\ hash_of toy None ee "sha256" /\ hash_of toy None holder "sha256"
  /\ validate_ku_and_eku_related_cert (l_usages toy holder) (l_usages toy ee) = Ok tt.
Proof.
  split; [apply toy_codecs|]. split; [apply toy_full|]. split; [vm_compute; reflexivity|].
  split; [apply ext_some; vm_compute; reflexivity|]. split; [apply hash_iff; vm_compute; reflexivity|].
  split; [apply hash_iff; vm_compute; reflexivity|vm_compute; reflexivity].
Qed.
Print Assumptions C126_prepared_some.
(** The hash is that of the signature of the related certificate when the extension is prepared, and that of the signature of
    the certificate with the extension when it is validated. *)
Theorem C126_other_hash_refuted : ~ (forall L r crit e a, codecs L -> collision_free L -> prepare_extension L r None crit = Ok e ->
  first_ext (l_exts L a) RELATED e -> validate_ku_and_eku_related_cert (l_usages L a) (l_usages L r) = Ok tt ->
  validate_extension L a r None = Ok tt).
Proof.
  intros H. assert (validate_extension toy holder512 ee None = Err EValueError) as N by (vm_compute; reflexivity).
  rewrite (H toy ee false rel holder512 toy_codecs toy_free) in N; [discriminate N|vm_compute; reflexivity|apply ext_some; vm_compute; reflexivity|vm_compute; reflexivity].
Qed.
Print Assumptions C126_other_hash_refuted.
(** In general: prepared by one hash and validated by another, it is refused. *)
Theorem C126_other_hash : forall L r h crit e a h' n n', codecs L -> prepare_extension L r h crit = Ok e -> first_ext (l_exts L a) RELATED e ->
  hash_of L h r n -> hash_of L h' a n' -> (forall m x, l_hash L m x <> []) ->
  (forall x y, digest_of L n r x -> digest_of L n' r y -> x <> y) -> (exists y, digest_of L n' r y) -> validate_extension L a r h' = Err EValueError.
Proof. exact prepared_other. Qed.
Print Assumptions C126_other_hash.
Example C126_other_hash_some : hash_of toy None ee "sha256" /\ hash_of toy None holder512 "sha512" /\ first_ext (l_exts toy holder512) RELATED rel
  /\ (forall x y, digest_of toy "sha256" ee x -> digest_of toy "sha512" ee y -> x <> y) /\ exists y, digest_of toy "sha512" ee y.
Proof.
  split; [apply hash_iff; vm_compute; reflexivity|]. split; [apply hash_iff; vm_compute; reflexivity|]. split; [apply ext_some; vm_compute; reflexivity|].
  split; [|eexists; apply digest_iff; vm_compute; reflexivity].
  intros x y X Y. apply digest_iff in X, Y. vm_compute in X, Y. congruence.
Qed.
Print Assumptions C126_other_hash_some.
(** In a list, the first certificate with the digest is found. *)
Theorem C126_found : forall L certs a r, find_related L certs a = Ok r <->
  exists s n p q, holds L a s /\ hash_of L None a n /\ digest_of L n r s /\ certs = p ++ r :: q /\ forall c, In c p -> ~ digest_of L n c s.
Proof. exact find_iff. Qed.
Print Assumptions C126_found.
Example C126_found_some : find_related toy [ca; ee; root] holder = Ok ee /\ find_related toy [ca; ee] ee = Err EValueError.
Proof. split; vm_compute; reflexivity. Qed.
Print Assumptions C126_found_some.
Theorem C126_not_found : forall L certs a s n m, holds L a s -> hash_of L None a n -> hash_name_to_instance n = Ok m ->
  (forall c, In c certs -> l_hash L m (c_der c) <> s) -> find_related L certs a = Err EValueError.
Proof. exact find_none. Qed.
Print Assumptions C126_not_found.
Example C126_not_found_some : find_related toy [ca; root] holder = Err EValueError /\ find_related toy [ca; ee] holder512 = Err EValueError
  /\ find_related toy [] holder = Err EValueError.
Proof. repeat split; vm_compute; reflexivity. Qed.
Print Assumptions C126_not_found_some.
(** What is accepted is found. *)
Theorem C126_accepted_found : forall L certs a r, collision_free L -> validate_extension L a r None = Ok tt -> In r certs ->
  exists x, find_related L certs a = Ok x /\ In x certs /\ c_der x = c_der r.
Proof. intros L certs a r C H. apply validate_ext_iff in H. exact (named_found L certs a r C (proj1 H)). Qed.
Print Assumptions C126_accepted_found.
Example C126_accepted_found_some : collision_free toy /\ validate_extension toy holder ee None = Ok tt /\ In ee [root; ee].
Proof. split; [apply toy_free|]. split; [vm_compute; reflexivity|right; left; reflexivity]. Qed.
Print Assumptions C126_accepted_found_some.
(** What is found need not be accepted: the usages are not looked at. *)
Theorem C126_found_accepted_refuted : ~ (forall L certs a r, find_related L certs a = Ok r -> validate_extension L a r None = Ok tt).
Proof.
  intros H. assert (validate_extension toy holder_eku ee None = Err EValueError) as N by (vm_compute; reflexivity).
  rewrite (H toy [ee] holder_eku ee) in N; [discriminate N|vm_compute; reflexivity].
Qed.
Print Assumptions C126_found_accepted_refuted.

(** ** C127: the request *)

(** Accepted exactly if the request is fresh, and names and is signed by the first certificate at its location. *)
Theorem C127_proved : forall L now attrs max b h l, validate_pop L now attrs max b h = Ok l <->
  exists q c rest, l = c :: rest /\ requests L attrs q /\ proved_by L now q max b h c rest.
Proof. exact pop_iff. Qed.
Print Assumptions C127_proved.
Example C127_proved_some : validate_pop toy 12 (asks "ee") 500 false None = Ok [ee] /\ validate_pop toy 12 (asks "chain") 500 true None = Ok [ee; ca; root]
  /\ validate_pop toy 12 (asks "ca") 500 false None = Err EValueError /\ validate_pop toy 12 [] 500 false None = Err EValueError.
Proof. repeat split; vm_compute; reflexivity. Qed.
Print Assumptions C127_proved_some.
(** What a request says. *)
Theorem C127_request : forall L now c k uri bad h bs bi fr time q, prepare_requester L now c k uri bad h bs bi fr time = Ok q ->
  exists n s, q_time q = (match time with Some t => if t =? 0 then now + fr else t | None => now + fr end) /\ 0 <= q_time q
    /\ (if bi then l_other_issuer L c else Ok (c_issuer c)) = Ok (q_issuer q) /\ q_serial q = (if bs then c_serial c + 1 else c_serial c)
    /\ q_uri q = uri /\ hash_of L h c n /\ l_sign L k (l_timeenc L (q_time q) ++ l_idenc L (q_issuer q) (q_serial q)) n = Ok s
    /\ (if bad then l_spoil L s k else Ok s) = Ok (q_sig q).
Proof. exact prepare_iff. Qed.
Print Assumptions C127_request.
Example C127_request_some : exists q, prepare_requester toy 10 ee (secret 3) "ee" true (Some "sha512") true true 5 (Some 0) = Ok q /\ q_time q = 15 /\ q_serial q = 4.
Proof. eexists. split; [vm_compute; reflexivity|]. split; reflexivity. Qed.
Print Assumptions C127_request_some.
(** A time of zero is not the time of the request. *)
Theorem C127_time_zero_refuted : ~ (forall L now c k uri bad h bs bi fr t q, prepare_requester L now c k uri bad h bs bi fr (Some t) = Ok q -> q_time q = t).
Proof.
  intros H. assert (q_time (req_of (prepare_requester toy 10 ee (secret 3) "ee" false None false false 0 (Some 0))) = 10) as N by (vm_compute; reflexivity).
  rewrite (H toy 10 ee (secret 3) "ee" false None false false 0 0) in N; [discriminate N|vm_compute; reflexivity].
Qed.
Print Assumptions C127_time_zero_refuted.
(** What is prepared is accepted while it is fresh. *)
Theorem C127_round_trip : forall L now c k uri h fr time attrs q now' max b rest, codecs L -> key_of L k c -> no_attr attrs REQUEST ->
  prepare_requester L now c k uri false h false false fr time = Ok q -> q_time q <= now' <= q_time q + max -> located L uri b (c :: rest) ->
  validate_pop L now' (add_request L attrs q) max b h = Ok (c :: rest).
Proof. exact round_trip. Qed.
Print Assumptions C127_round_trip.
Example C127_round_trip_some : codecs toy /\ key_of toy (secret 3) ee /\ no_attr [{| SdModel.t_type := EXT_REQUEST; SdModel.t_vals := [] |}] REQUEST
  /\ prepare_requester toy 10 ee (secret 3) "chain" false None false false 0 None = Ok (request "chain")
  /\ q_time (request "chain") <= 12 <= q_time (request "chain") + 500 /\ located toy "chain" true [ee; ca; root].
Proof.
  split; [apply toy_codecs|]. split; [apply toy_key; discriminate|]. split; [intros y [<- | []]; discriminate|]. split; [vm_compute; reflexivity|].
  split; [vm_compute; split; discriminate|]. apply located_iff. vm_compute. reflexivity.
Qed.
Print Assumptions C127_round_trip_some.
(** Refused: too early or too late; another issuer, serial number or key. *)
Theorem C127_time : forall L now attrs max b h q, requests L attrs q -> now < q_time q \/ q_time q + max < now -> validate_pop L now attrs max b h = Err EBadTime.
Proof. exact pop_time. Qed.
Print Assumptions C127_time.
Example C127_time_some : requests toy (asks "ee") (request "ee") /\ validate_pop toy 9 (asks "ee") 500 false None = Err EBadTime
  /\ validate_pop toy 510 (asks "ee") 500 false None = Ok [ee] /\ validate_pop toy 511 (asks "ee") 500 false None = Err EBadTime.
Proof. split; [apply requests_iff; vm_compute; reflexivity|]. repeat split; vm_compute; reflexivity. Qed.
Print Assumptions C127_time_some.
Theorem C127_refused : forall L now attrs max b h q c rest, requests L attrs q -> located L (q_uri q) b (c :: rest) ->
  (now < q_time q \/ q_time q + max < now \/ q_issuer q <> c_issuer c \/ q_serial q <> c_serial c \/ ~ possessed L c q h) ->
  forall l, validate_pop L now attrs max b h <> Ok l.
Proof. exact pop_refused. Qed.
Print Assumptions C127_refused.
Example C127_refused_some : located toy (q_uri (request "ca")) false [ca] /\ q_serial (request "ca") <> c_serial ca
  /\ (forall bs bi, bs = true \/ bi = true -> exists q, prepare_requester toy 10 ee (secret 3) "ee" false None bs bi 0 None = Ok q
        /\ validate_pop toy 12 (add_request toy [] q) 500 false None = Err EValueError).
Proof.
  split; [apply located_iff; vm_compute; reflexivity|]. split; [vm_compute; discriminate|].
  intros [|] [|] H; try (destruct H; discriminate); (eexists; split; [vm_compute; reflexivity|vm_compute; reflexivity]).
Qed.
Print Assumptions C127_refused_some.
Theorem C127_bad_signature : forall L now attrs max b h q c rest e, requests L attrs q -> located L (q_uri q) b (c :: rest) -> q_time q <= now <= q_time q + max ->
  q_issuer q = c_issuer c -> q_serial q = c_serial c -> forall k n, l_load L c = Ok k -> l_verifies L k = true -> hash_of L h c n ->
  l_verify L k (l_timeenc L (q_time q) ++ l_idenc L (q_issuer q) (q_serial q)) (q_sig q) n = Err e ->
  e = EInvalidSignature \/ e = EInvalidAltSignature -> validate_pop L now attrs max b h = Err EBadPOP.
Proof. exact pop_error. Qed.
Print Assumptions C127_bad_signature.
Example C127_bad_signature_some :
  validate_pop toy 12 (add_request toy [] (req_of (prepare_requester toy 10 ee (secret 3) "ee" true None false false 0 None))) 500 false None = Err EBadPOP
  /\ validate_pop toy 12 (add_request toy [] (req_of (prepare_requester toy 10 ee (secret 7) "ee" false None false false 0 None))) 500 false None = Err EBadPOP
  /\ validate_pop toy 12 (asks "ee") 500 false (Some "sha512") = Err EBadPOP.
Proof. repeat split; vm_compute; reflexivity. Qed.
Print Assumptions C127_bad_signature_some.
(** The answer depends on the first request among the attributes only: the proof is not bound to the rest of the certificate
    request, and a request that is copied into another one is accepted again. *)
Theorem C127_copied : forall L now attrs attrs' max b h a, first_attr attrs REQUEST a -> first_attr attrs' REQUEST a ->
  validate_pop L now attrs max b h = validate_pop L now attrs' max b h.
Proof. intros L now attrs attrs' max b h a A A'. apply pop_replay. apply attr_some in A, A'. congruence. Qed.
Print Assumptions C127_copied.
Example C127_copied_some : exists a, first_attr (asks "ee") REQUEST a
  /\ first_attr ({| SdModel.t_type := EXT_REQUEST; SdModel.t_vals := [] |} :: asks "ee" ++ asks "ca") REQUEST a.
Proof. eexists. split; apply attr_some; vm_compute; reflexivity. Qed.
Print Assumptions C127_copied_some.
(** The location is not signed. *)
Theorem C127_moved : forall L now q u max b h l, codecs L -> validate_pop L now (add_request L [] q) max b h = Ok l -> located L u b l ->
  validate_pop L now (add_request L [] (at_uri q u)) max b h = Ok l.
Proof. exact moved. Qed.
Print Assumptions C127_moved.
Example C127_moved_some : validate_pop toy 12 (asks "ee") 500 false None = Ok [ee] /\ located toy "mirror" false [ee].
Proof. split; [vm_compute; reflexivity|apply located_iff; vm_compute; reflexivity]. Qed.
Print Assumptions C127_moved_some.
Theorem C127_location_refuted : ~ (forall L now q u max b h l, codecs L -> validate_pop L now (add_request L [] q) max b h = Ok l -> u <> q_uri q ->
  forall l', validate_pop L now (add_request L [] (at_uri q u)) max b h <> Ok l').
Proof.
  intros H. apply (H toy 12 (request "ee") "mirror" 500 false None [ee] toy_codecs) with (l' := [ee]); [vm_compute; reflexivity|discriminate|vm_compute; reflexivity].
Qed.
Print Assumptions C127_location_refuted.

(** ** C128: the certificate request *)

Theorem C128_accepted : forall L now attrs b max dir roots os allow crl ssl given a, validate_csr L now attrs b max dir roots os allow crl ssl given = Ok a <->
  (forall l, asks_exts L attrs l -> not_ca L l) /\ ((exists l, asks_exts L attrs l) \/ no_attr attrs EXT_REQUEST)
  /\ exists q rest chain, requests L attrs q /\ proved_by L now q max b None a rest /\ not_ca L (l_exts L a)
       /\ chain_of L a rest b (dir ++ roots) given chain /\ anchored chain (dir ++ if allow then os else [])
       /\ (ssl = true -> l_openssl L chain crl = Ok tt).
Proof. exact csr_iff. Qed.
Print Assumptions C128_accepted.
Definition wants_ca : list attr := {| SdModel.t_type := EXT_REQUEST; SdModel.t_vals := [ChamToy.en c_exts [bc true]] |} :: asks "chain".
Definition wants_ee : list attr := {| SdModel.t_type := EXT_REQUEST; SdModel.t_vals := [ChamToy.en c_exts [bc false]] |} :: asks "chain".
Example C128_accepted_some :
  validate_csr toy 12 wants_ee true 500 [root] [] [] false false true None = Ok ee
  /\ validate_csr toy 12 (asks "ee") false 500 [ca] [root] [root] true false true None = Ok ee
  /\ validate_csr toy 12 wants_ca true 500 [root] [] [] false false true None = Err EBadCertTemplate
  /\ validate_csr toy 12 (asks "ee") false 500 [ca] [root] [] false false true None = Err ESignerNotTrusted
  /\ validate_csr toy 12 (asks "chain") true 500 [ca] [] [] false false true None = Err ESignerNotTrusted.
Proof. repeat split; vm_compute; reflexivity. Qed.
Print Assumptions C128_accepted_some.
(** A chain that is given is checked in place of the one of the certificate that is returned. *)
Theorem C128_other_chain_refuted : ~ (forall L now attrs b max dir roots os allow crl ssl given a,
  validate_csr L now attrs b max dir roots os allow crl ssl (Some given) = Ok a -> In a given).
Proof.
  intros H. assert (In ee [ca; root]) as N; [|cbn [In] in N; destruct N as [N|[N|[]]]; discriminate N].
  apply (H toy 12 (asks "chain") true 500 [root] [] [] false false true). vm_compute. reflexivity.
Qed.
Print Assumptions C128_other_chain_refuted.
(** Without OpenSSL, the certificates at the location need not be a chain: only the last one is looked at. *)
Theorem C128_no_chain : forall L now attrs max dir roots os allow crl q a rest, requests L attrs q -> no_attr attrs EXT_REQUEST ->
  proved_by L now q max true None a rest -> not_ca L (l_exts L a) -> anchored (a :: rest) dir ->
  validate_csr L now attrs true max dir roots os allow crl false None = Ok a.
Proof.
  intros L now attrs max dir roots os allow crl q a rest R N P C A. apply csr_iff. split.
  - intros l (x & v & more & r & (p & s & -> & T & _) & _). exfalso. apply (N x); [apply in_elt|exact T].
  - split; [right; exact N|]. exists q, rest, (a :: rest). split; [exact R|]. split; [exact P|]. split; [exact C|]. split; [reflexivity|]. split; [|discriminate].
    destruct A as (l & c & x & E & I & D). exists l, c, x. split; [exact E|]. split; [apply in_or_app; left; exact I|exact D].
Qed.
Print Assumptions C128_no_chain.
Example C128_no_chain_some : requests toy (asks "chain") (request "chain") /\ no_attr (asks "chain") EXT_REQUEST
  /\ proved_by toy 12 (request "chain") 500 true None ee [ca; root] /\ not_ca toy (l_exts toy ee) /\ anchored [ee; ca; root] [root].
Proof.
  split; [apply requests_iff; vm_compute; reflexivity|]. split; [apply attr_none; vm_compute; reflexivity|]. split.
  - assert (validate_pop toy 12 (asks "chain") 500 true None = Ok [ee; ca; root]) as H by (vm_compute; reflexivity).
    apply pop_iff in H. destruct H as (q & c & rest & E & R & P). injection E as <- <-.
    rewrite (requests_fun toy (asks "chain") (request "chain") q); [exact P| |exact R]. apply requests_iff. vm_compute. reflexivity.
  - split; [apply ca_iff; vm_compute; reflexivity|]. exists [ee; ca], root, root. split; [reflexivity|]. split; [left; reflexivity|reflexivity].
Qed.
Print Assumptions C128_no_chain_some.
(** The check of the server succeeds for nothing that can be handed in. *)
Theorem C128_server_refuted : forall L now b r, server_check L now b r <> Ok tt.
Proof. exact server_never. Qed.
Print Assumptions C128_server_refuted.
Example C128_server_refuted_some : server_check toy 12 (ICert holder) ee = Err EKeyError /\ server_check toy 12 (ITemplate [bc false; rel]) ee = Err EKeyError
  /\ server_check toy 12 (ITemplate [rel]) ee = Err ETypeError.
Proof. repeat split; reflexivity. Qed.
Print Assumptions C128_server_refuted_some.

(** The extension that is issued holds the digest of the certificate that is given, or else of the one that the request
    proves possession of. *)
Theorem C128_issued : forall L now attrs b max dir roots os allow crl related crit e,
  issue_extension L now attrs b max dir roots os allow crl related crit = Ok e <->
  exists r n x, (related = Some r \/ (related = None /\ validate_csr L now attrs b max dir roots os allow crl true None = Ok r))
    /\ hash_of L None r n /\ digest_of L n r x /\ e = {| x_id := RELATED; x_crit := crit; x_val := l_octenc L x |}.
Proof.
  intros. unfold issue_extension, prepare_extension. split.
  - intros H. apply ProtMac.bind_inv in H. destruct H as (r & R & H). apply ProtMac.bind_inv in H. destruct H as (n & N & H). apply ProtMac.bind_inv in H. destruct H as (x & X & H).
    exists r, n, x. split; [destruct related; [left; congruence|right; split; [reflexivity|exact R]]|]. split; [apply hash_iff, N|]. split; [apply digest_iff, X|congruence].
  - intros (r & n & x & R & N & X & ->).
    assert (match related with Some r0 => Ok r0 | None => validate_csr L now attrs b max dir roots os allow crl true None end = Ok r) as -> by (destruct R as [-> | [-> R]]; [reflexivity|exact R]).
    cbn [bind]. rewrite (proj2 (hash_iff L None r n) N). cbn [bind]. rewrite (proj2 (digest_iff L n r x) X). reflexivity.
Qed.
Print Assumptions C128_issued.
Example C128_issued_some : issue_extension toy 12 (asks "chain") true 500 [root] [] [] false false None false = Ok rel
  /\ issue_extension toy 12 [] true 500 [root] [] [] false false (Some ee) false = Ok rel
  /\ issue_extension toy 12 (asks "chain") true 500 [ca] [] [] false false None false = Err ESignerNotTrusted.
Proof. repeat split; vm_compute; reflexivity. Qed.
Print Assumptions C128_issued_some.

(** ** C129: discovery *)

Theorem C129_descriptor : forall L e index d, extract_descriptor L (AExt e) index = Ok d <->
  exists sia rest a, l_siadec L (x_val e) = Some (sia, rest) /\ chosen sia index a /\ described L a d.
Proof. exact extract_iff. Qed.
Print Assumptions C129_descriptor.
Definition two_ways : ext := {| x_id := SIA; x_crit := false;
  x_val := ChamToy.en (ChamToy.c_list c_access) [{| a_method := "id_ad_caRepository"; a_loc := LElse |};
    {| a_method := DISCOVERY; a_loc := LOther DESCRIPTOR (l_descenc toy (prepare_descriptor toy "ee" None None None)) |}] |}.
Example C129_descriptor_some : extract_descriptor toy (AExt two_ways) None = Ok (prepare_descriptor toy "ee" None None None)
  /\ extract_descriptor toy (AExt two_ways) (Some 1%nat) = Ok (prepare_descriptor toy "ee" None None None)
  /\ extract_descriptor toy (AExt two_ways) (Some O) = Err EValueError /\ extract_descriptor toy (AExt two_ways) (Some 2%nat) = Err EIndexError.
Proof. repeat split; vm_compute; reflexivity. Qed.
Print Assumptions C129_descriptor_some.
(** What is prepared names the location; an algorithm that is given wins over that of the other certificate. *)
Theorem C129_prepared_fields : forall L url crit sig key other,
  x_id (prepare_sia L url crit sig key other) = SIA /\ x_crit (prepare_sia L url crit sig key other) = crit
  /\ d_uri (prepare_descriptor L url other sig key) = url
  /\ (forall a, sig = Some a -> d_sig (prepare_descriptor L url other sig key) = Some a)
  /\ (forall a, key = Some a -> d_key (prepare_descriptor L url other sig key) = Some a)
  /\ (sig = None -> forall c, other = Some c -> d_sig (prepare_descriptor L url other sig key) = Some (l_sigalg L c))
  /\ (key = None -> forall c, other = Some c -> d_key (prepare_descriptor L url other sig key) = Some (l_keyalg L c))
  /\ (other = None -> d_sig (prepare_descriptor L url other sig key) = sig /\ d_key (prepare_descriptor L url other sig key) = key).
Proof.
  intros L url crit sig key other. repeat split; try reflexivity; intros; subst; try reflexivity; [destruct sig | destruct key]; reflexivity.
Qed.
Print Assumptions C129_prepared_fields.
Theorem C129_prepared : forall L url crit sig key other, codecs L ->
  extract_descriptor L (AExt (prepare_sia L url crit sig key other)) None = Ok (prepare_descriptor L url other sig key)
  /\ extract_descriptor L (AExt (prepare_sia L url crit sig key other)) (Some O) = Ok (prepare_descriptor L url other sig key).
Proof. exact prepared_extracts. Qed.
Print Assumptions C129_prepared.
Example C129_prepared_some : codecs toy. Proof. exact toy_codecs. Qed.
Print Assumptions C129_prepared_some.
(** The algorithms of the descriptor, where it has some, are those of the certificate. *)
Theorem C129_algorithms : forall L c d, check_algs L c d = Ok tt <-> fits_desc L c d.
Proof. exact algs_iff. Qed.
Print Assumptions C129_algorithms.
Example C129_algorithms_some : check_algs toy ee (prepare_descriptor toy "ee" (Some ee) None None) = Ok tt
  /\ check_algs toy ee (prepare_descriptor toy "ee" (Some ca) None None) = Err EValueError
  /\ check_algs toy ee (prepare_descriptor toy "ee" None (Some (sig_alg 1)) None) = Err EValueError
  /\ check_algs toy ee (prepare_descriptor toy "ee" None None None) = Ok tt.
Proof. repeat split; vm_compute; reflexivity. Qed.
Print Assumptions C129_algorithms_some.
Theorem C129_prepared_fits : forall L url c sig key, (sig = None \/ sig = Some (l_sigalg L c)) -> (key = None \/ key = Some (l_keyalg L c)) ->
  check_algs L c (prepare_descriptor L url (Some c) sig key) = Ok tt.
Proof. intros L url c sig key [-> | ->] [-> | ->]; apply algs_iff; split; cbn [prepare_descriptor d_sig d_key]; intros a H; congruence. Qed.
Print Assumptions C129_prepared_fits.
(** Whether discovery applies, and what is discovered. *)
Theorem C129_applies : forall L c, is_discovery L c = Ok true <->
  exists e sia rest a, first_ext (l_exts L c) SIA e /\ l_siadec L (x_val e) = Some (sia, rest) /\ In a sia /\ a_method a = DISCOVERY.
Proof. exact discovery_iff. Qed.
Print Assumptions C129_applies.
Theorem C129_discovered : forall L c o, discover L c = Ok (Some o) <->
  exists e sia rest a d, first_ext (l_exts L c) SIA e /\ l_siadec L (x_val e) = Some (sia, rest) /\ chosen sia None a /\ described L a d
    /\ located L (d_uri d) false [o].
Proof. exact discover_iff. Qed.
Print Assumptions C129_discovered.
Example C129_discovered_some : is_discovery toy finder = Ok true /\ discover toy finder = Ok (Some ee) /\ is_discovery toy ee = Ok false /\ discover toy ee = Ok None.
Proof. repeat split; vm_compute; reflexivity. Qed.
Print Assumptions C129_discovered_some.
(** What is discovered need not have the algorithms of the descriptor. *)
Theorem C129_discovered_fits_refuted : ~ (forall L c o e d, discover L c = Ok (Some o) -> first_ext (l_exts L c) SIA e ->
  extract_descriptor L (AExt e) None = Ok d -> check_algs L o d = Ok tt).
Proof.
  intros H. set (e := prepare_sia toy "ee" false (Some (sig_alg 1)) None None).
  assert (check_algs toy ee (prepare_descriptor toy "ee" None (Some (sig_alg 1)) None) = Err EValueError) as N by (vm_compute; reflexivity).
  rewrite (H toy (mk 6 0 0 2 [e]) ee e) in N; [discriminate N|vm_compute; reflexivity|apply ext_some; vm_compute; reflexivity|apply prepared_extracts, toy_codecs].
Qed.
Print Assumptions C129_discovered_fits_refuted.
(** Validating a certificate by discovery always fails. *)
Theorem C129_validated_refuted : forall L p i s ssl crl dir, validate_discovery L p i s ssl crl dir = Err ETypeError.
Proof. exact discovery_never. Qed.
Print Assumptions C129_validated_refuted.
