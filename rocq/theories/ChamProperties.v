(** C113: paired certificates; C114: paired requests; C115: issuing paired certificates. *)
From Coq Require Import String Permutation.
From Verif Require Import Prelude HdrModel ProtMac ChamModel ChamSpec ChamProofs ChamReq ChamIssue ChamMore ChamToy.
Open Scope string_scope.
Open Scope Z_scope.
Open Scope list_scope.
Local Notation length := List.length.

(** ** Keys, certificates and requests of the examples *)

Definition rsa1 : skey := {| s_pub := {| p_id := [11]; p_verify := true; p_rsa := Some 2048 |}; s_id := [1] |}.
Definition rsa2 : skey := {| s_pub := {| p_id := [12]; p_verify := true; p_rsa := Some 3072 |}; s_id := [2] |}.
Definition ec1 : skey := {| s_pub := {| p_id := [13]; p_verify := true; p_rsa := None |}; s_id := [3] |}.
Definition ec2 : skey := {| s_pub := {| p_id := [14]; p_verify := true; p_rsa := None |}; s_id := [4] |}.
Definition usage (v : bytes) : ext := {| x_id := "2.5.29.15"; x_crit := true; x_val := v |}.
Definition basic (v : bytes) : ext := {| x_id := "2.5.29.19"; x_crit := false; x_val := v |}.
Definition an_alg (o : string) (p : option bytes) : alg := {| g_oid := o; g_par := p |}.
Definition a_tbs (serial : Z) (a : alg) (subject spki : bytes) (xs : list ext) : tbs :=
  {| t_version := 2; t_serial := serial; t_alg := a; t_issuer := [1; 2]; t_validity := [3; 4]; t_subject := subject;
     t_spki := spki; t_uids := []; t_exts := xs |}.
Definition spki_of (k : skey) : bytes := l_spki toy (s_pub k) false.
Definition the_base : tbs := a_tbs 5 (an_alg "ecdsa-sha256" None) [7] (spki_of ec1) [usage [1]; basic [2]].
Definition the_delta (k : skey) (h : string) : result cert :=
  sign_cert toy (a_tbs 6 (an_alg "" None) [8] (spki_of rsa2) [usage [9]; basic [2]]) k (Some h) false.
Definition the_opts (h : string) : opts :=
  {| o_ski := Some true; o_add := []; o_crit := false; o_strict := false; o_same := true; o_pss := false; o_hash := h;
     o_validity := [3; 4]; o_serial1 := 100; o_serial2 := 101 |}.
Definition the_csr (bx : option (list ext)) (dx : list ext) (bad : bool) : result csr :=
  build_paired_csr toy rsa1 ec1 [7] bx (Some [8]) dx (Some "sha256") false bad.
Definition csr_of (r : result csr) : csr :=
  match r with
  | Ok c => c
  | Err _ => {| r_info := {| i_version := 0; i_subject := []; i_spki := []; i_attrs := [] |}; r_alg := an_alg "" None; r_sig := [] |}
  end.
Definition issue (c : csr) (o : opts) : cert * cert :=
  match issue_paired toy c rsa2 [1; 2] o with
  | Ok x => x
  | Err _ => ({| c_tbs := the_base; c_alg := an_alg "" None; c_sig := [] |}, {| c_tbs := the_base; c_alg := an_alg "" None; c_sig := [] |})
  end.
Definition req_of (c : csr) : dreq :=
  match verify_paired_csr toy c with Ok q => q | Err _ => {| q_subject := None; q_spki := []; q_exts := []; q_alg := None |} end.

(** ** C113: the delta certificate out of the paired one *)

(** The delta certificate is had back from a paired certificate made of it, exactly when version, unique identifiers and the
    types of the extensions agree with the base certificate, and the algorithm is the same or has no parameters. *)
Theorem C113_exact : forall L delta base k pss crit hash c, cham_ok L ->
  NoDup (ids (t_exts base)) -> ~ In DCD (ids (t_exts base)) -> build_paired L delta base k pss crit hash = Ok c ->
  (rebuild L c = Ok delta <-> recoverable delta base c).
Proof. exact rebuilt_exact. Qed.
Print Assumptions C113_exact.
(** In any case a certificate is rebuilt that has serial number, names, validity, key and signature of the delta. *)
Theorem C113_always : forall L delta base k pss crit hash c, cham_ok L ->
  NoDup (ids (t_exts base)) -> ~ In DCD (ids (t_exts base)) -> build_paired L delta base k pss crit hash = Ok c ->
  exists r, rebuild L c = Ok r /\ t_serial (c_tbs r) = t_serial (c_tbs delta) /\ t_issuer (c_tbs r) = t_issuer (c_tbs delta) /\
    t_validity (c_tbs r) = t_validity (c_tbs delta) /\ t_subject (c_tbs r) = t_subject (c_tbs delta) /\
    t_spki (c_tbs r) = t_spki (c_tbs delta) /\ c_sig r = c_sig delta /\
    ids (t_exts (c_tbs r)) = ids (t_exts base) /\
    (forall e, In e (t_exts (c_tbs r)) ->
       get_extension (t_exts (c_tbs delta)) (x_id e) = Some e \/
       (~ In (x_id e) (ids (t_exts (c_tbs delta))) /\ In e (t_exts base))).
Proof. exact rebuilt_always. Qed.
Print Assumptions C113_always.
(** What is rebuilt from any certificate: the first descriptor says what differs, everything else is the certificate's. *)
Theorem C113_any : forall L c r, rebuild L c = Ok r ->
  exists d, descriptor L c d /\
    t_version (c_tbs r) = t_version (c_tbs c) /\ t_uids (c_tbs r) = t_uids (c_tbs c) /\
    t_serial (c_tbs r) = d_serial d /\ t_spki (c_tbs r) = d_spki d /\ c_sig r = d_sig d /\
    given (d_alg d) (t_alg (c_tbs c)) (t_alg (c_tbs r)) /\ given (d_alg d) (c_alg c) (c_alg r) /\
    given (d_issuer d) (t_issuer (c_tbs c)) (t_issuer (c_tbs r)) /\
    given (d_validity d) (t_validity (c_tbs c)) (t_validity (c_tbs r)) /\
    given (d_subject d) (t_subject (c_tbs c)) (t_subject (c_tbs r)) /\
    ids (t_exts (c_tbs r)) = ids (others (t_exts (c_tbs c))) /\
    (NoDup (ids (others (t_exts (c_tbs c)))) -> NoDup (ids (d_exts d)) ->
     forall e, In e (t_exts (c_tbs r)) <->
       (In (x_id e) (ids (others (t_exts (c_tbs c)))) /\ In e (d_exts d)) \/
       (~ In (x_id e) (ids (d_exts d)) /\ In e (others (t_exts (c_tbs c))))).
Proof. exact rebuild_any. Qed.
Print Assumptions C113_any.
(** It succeeds exactly when the descriptor can be read and overrides only extensions the certificate has. *)
Theorem C113_succeeds : forall L c, is_ok (rebuild L c) = true <->
  exists d, descriptor L c d /\ forall e, In e (d_exts d) -> In (x_id e) (ids (others (t_exts (c_tbs c)))).
Proof. exact rebuild_ok. Qed.
Print Assumptions C113_succeeds.
(** The delta key of a certificate is that of its first descriptor; of a certificate that was built, that of the delta. *)
Theorem C113_key : forall L c k, delta_public_key L c = Ok k <-> exists d, descriptor L c d /\ d_spki d = k.
Proof. exact delta_key_exact. Qed.
Print Assumptions C113_key.
Theorem C113_built_key : forall L delta base k pss crit hash c, cham_ok L -> ~ In DCD (ids (t_exts base)) ->
  build_paired L delta base k pss crit hash = Ok c -> delta_public_key L c = Ok (t_spki (c_tbs delta)).
Proof. exact delta_key_built. Qed.
Print Assumptions C113_built_key.
(** The extensions of a descriptor are accepted exactly when each overrides one of the base certificate with other content. *)
Theorem C113_validate : forall dl base, NoDup (ids base) ->
  (validate_dcd_exts dl base = Ok tt <->
   forall e, In e dl -> x_id e <> DCD /\
     exists b, In b base /\ x_id b = x_id e /\ (x_crit e <> x_crit b \/ x_val e <> x_val b)).
Proof. exact validate_exact. Qed.
Print Assumptions C113_validate.
(** The descriptor that is built is accepted, and one that is accepted, with nothing after it, can be rebuilt from. *)
Theorem C113_built_validates : forall L delta base k pss crit hash c, cham_ok L ->
  NoDup (ids (t_exts base)) -> ~ In DCD (ids (t_exts base)) -> build_paired L delta base k pss crit hash = Ok c ->
  validate_dcd_cert L c (t_exts base) = Ok tt.
Proof. exact built_validates. Qed.
Print Assumptions C113_built_validates.
Theorem C113_validated : forall L c d, NoDup (ids (others (t_exts (c_tbs c)))) -> descriptor L c d ->
  validate_dcd_cert L c (others (t_exts (c_tbs c))) = Ok tt -> is_ok (rebuild L c) = true.
Proof. exact validated_rebuilds. Qed.
Print Assumptions C113_validated.
(** The parameters of an algorithm that differs are lost: the certificate rebuilt is not the delta certificate, and what its
    signature covers is no longer what was signed. *)
Theorem C113_parameters_refuted : exists L delta base k c r, cham_ok L /\ NoDup (ids (t_exts base)) /\ ~ In DCD (ids (t_exts base)) /\
  t_version (c_tbs delta) = t_version base /\ t_uids (c_tbs delta) = t_uids base /\ ids (t_exts (c_tbs delta)) = ids (t_exts base) /\
  c_alg delta = t_alg (c_tbs delta) /\ build_paired L delta base k false false None = Ok c /\
  l_verify L (s_pub rsa1) (c_alg delta) (l_tbs L (c_tbs delta)) (c_sig delta) = Ok tt /\
  rebuild L c = Ok r /\ r <> delta /\ l_verify L (s_pub rsa1) (c_alg r) (l_tbs L (c_tbs r)) (c_sig r) = Err EInvalidSignature.
Proof.
  destruct (the_delta rsa1 "sha256") as [delta|] eqn:E; [|discriminate E].
  exists toy, delta, the_base, ec1. destruct (build_paired toy delta the_base ec1 false false None) as [c|] eqn:B.
  - destruct (rebuild toy c) as [r|] eqn:R.
    + exists c, r. vm_compute in E. injection E as <-. vm_compute in B. injection B as <-. vm_compute in R. injection R as <-.
      split; [exact toy_ok|]. split; [vm_compute; repeat constructor; cbn; intuition discriminate|]. split; [vm_compute; intuition discriminate|].
      do 5 (split; [reflexivity|]). split; [vm_compute; reflexivity|]. split; [reflexivity|]. split; [discriminate | vm_compute; reflexivity].
    + exfalso. vm_compute in E. injection E as <-. vm_compute in B. injection B as <-. vm_compute in R. discriminate R.
  - exfalso. vm_compute in E. injection E as <-. vm_compute in B. discriminate B.
Qed.
Print Assumptions C113_parameters_refuted.
(** The validation accepts a descriptor with something after it, from which nothing is rebuilt. *)
Theorem C113_trailing_refuted : exists L c, cham_ok L /\ validate_dcd_cert L c (others (t_exts (c_tbs c))) = Ok tt /\
  rebuild L c = Err EBadAsn1Data /\ delta_public_key L c = Err EBadAsn1Data.
Proof.
  pose (d := {| d_serial := 6; d_alg := None; d_issuer := None; d_validity := None; d_subject := None; d_spki := [1]; d_exts := []; d_sig := [2] |}).
  exists toy, {| c_tbs := set_texts the_base [usage [1]; {| x_id := DCD; x_crit := false; x_val := en c_dcd d ++ [0] |}];
                 c_alg := an_alg "ecdsa-sha256" None; c_sig := [] |}.
  split; [exact toy_ok|]. split; [|split]; vm_compute; reflexivity.
Qed.
Print Assumptions C113_trailing_refuted.
(** A certificate's descriptor passes against base extensions exactly when its first descriptor decodes and its extensions pass;
    what follows the descriptor is not looked at. *)
Theorem C113_certificate : forall L c base, validate_dcd_cert L c base = Ok tt <->
  exists e before after d rest, t_exts (c_tbs c) = before ++ e :: after /\ ~ In DCD (ids before) /\ x_id e = DCD /\
    l_ddec L (x_val e) = Some (d, rest) /\ validate_dcd_exts (d_exts d) base = Ok tt.
Proof. exact validate_cert_exact. Qed.
Print Assumptions C113_certificate.

Example C113_ex : exists delta c, the_delta ec2 "sha512" = Ok delta /\ build_paired toy delta the_base ec1 false true (Some "sha256") = Ok c /\
  NoDup (ids (t_exts the_base)) /\ ~ In DCD (ids (t_exts the_base)) /\ recoverable delta the_base c /\
  rebuild toy c = Ok delta /\ delta_public_key toy c = Ok (spki_of rsa2) /\ validate_dcd_cert toy c (t_exts the_base) = Ok tt /\
  validate_dcd_exts [usage [1]] (t_exts the_base) = Err EValueError /\ t_exts (c_tbs delta) <> t_exts the_base /\
  rebuild toy {| c_tbs := the_base; c_alg := t_alg the_base; c_sig := [] |} = Err EValueError.
Proof.
  destruct (the_delta ec2 "sha512") as [delta|] eqn:E; [|discriminate E]. vm_compute in E. injection E as <-.
  eexists _, _. split; [reflexivity|]. split; [vm_compute; reflexivity|]. split; [vm_compute; repeat constructor; cbn; intuition discriminate|].
  split; [vm_compute; intuition discriminate|]. split; [constructor; try reflexivity; right; vm_compute; split; [discriminate | now split]|].
  do 4 (split; [vm_compute; reflexivity|]). split; [discriminate | vm_compute; reflexivity].
Qed.
Print Assumptions C113_ex.

(** ** C114: paired requests *)

(** A paired request is accepted, with this delta request, exactly when the request proves possession of the base key,
    the delta request and signatures can be decoded, and the last signature proves possession of the key of the last delta request. *)
Theorem C114_verify : forall L c q, verify_paired_csr L c = Ok q <-> base_proven L c /\ attrs_decode L c /\ delta_proven L c q.
Proof. exact verify_exact. Qed.
Print Assumptions C114_verify.
(** A request that is built is accepted, in whatever order its attributes arrive, with what was asked for. *)
Theorem C114_built : forall L bk dk su bx ds dx h pss bad c c', cham_ok L -> p_verify (s_pub bk) = true -> p_verify (s_pub dk) = true ->
  build_paired_csr L bk dk su bx ds dx h pss bad = Ok c -> received c c' -> bad = false ->
  exists a, l_alg L dk h pss = Ok a /\
    verify_paired_csr L c' = Ok {| q_subject := ds; q_spki := l_spki L (s_pub dk) false; q_exts := dx; q_alg := Some a |}.
Proof. exact built_verifies. Qed.
Print Assumptions C114_built.
(** The negative request is refused as a bad proof of the alternative key, if the changed signature does not verify. *)
Theorem C114_bad : forall L bk dk su bx ds dx h pss bad c c', cham_ok L -> p_verify (s_pub bk) = true -> p_verify (s_pub dk) = true ->
  build_paired_csr L bk dk su bx ds dx h pss bad = Ok c -> received c c' -> bad = true ->
  (forall a d s s', l_sign L dk h pss d = Ok s -> manipulate_first_byte s = Ok s' -> l_verify L (s_pub dk) a d s' = Err EInvalidSignature) ->
  verify_paired_csr L c' = Err EInvalidAltSignature.
Proof. exact built_bad. Qed.
Print Assumptions C114_bad.
(** The delta key the CA looks up is that of the first delta request: with one delta request, the key that is proven. *)
Theorem C114_sender : forall L c p n, delta_key_and_sender L c = Ok (p, n) <->
  exists v q, first_value REQ (i_attrs (r_info c)) v /\ l_qdec L v = Ok q /\ l_load L (q_spki q) = Ok p /\
    given (q_subject q) (i_subject (r_info c)) n.
Proof. exact sender_exact. Qed.
Print Assumptions C114_sender.
Theorem C114_one : forall L c q p n, verify_paired_csr L c = Ok q -> delta_key_and_sender L c = Ok (p, n) ->
  (exists before a after, i_attrs (r_info c) = before ++ a :: after /\ a_type a = REQ /\ ~ In REQ (map a_type (before ++ after))) ->
  l_load L (q_spki q) = Ok p.
Proof. exact sender_proven. Qed.
Print Assumptions C114_one.
(** A request with two delta requests is accepted and issued for the last, while the key looked up, to refuse revoked and
    duplicate keys, is that of the first. *)
Theorem C114_two_refuted : exists L c k o p d key name, cham_ok L /\ issue_paired L c k [1; 2] o = Ok (p, d) /\
  delta_key_and_sender L c = Ok (key, name) /\ l_load L (t_spki (c_tbs d)) <> Ok key /\ t_subject (c_tbs d) <> name.
Proof.
  pose (q1 := {| q_subject := Some [1]; q_spki := spki_of ec2; q_exts := []; q_alg := None |}).
  pose (q2 := {| q_subject := Some [8]; q_spki := spki_of ec1; q_exts := []; q_alg := None |}).
  pose (i1 := {| i_version := 0; i_subject := [7]; i_spki := spki_of rsa1;
                 i_attrs := [{| a_type := REQ; a_val := en c_req q1 |}; {| a_type := REQ; a_val := en c_req q2 |}] |}).
  pose (i2 := set_attrs i1 (i_attrs i1 ++ [{| a_type := REQSIG; a_val := l_senc toy (13 :: toy_info i1) |}])).
  pose (c := {| r_info := i2; r_alg := an_alg "rsa-sha256" (Some [5; 0]); r_sig := 11 :: toy_info i2 |}).
  destruct (issue_paired toy c rsa2 [1; 2] (the_opts "sha256")) as [[p d]|] eqn:E.
  - exists toy, c, rsa2, (the_opts "sha256"), p, d. eexists _, _. split; [exact toy_ok|]. split; [exact E|]. split; [vm_compute; reflexivity|].
    vm_compute in E. injection E as _ <-. split; [vm_compute; discriminate | discriminate].
  - exfalso. vm_compute in E. discriminate E.
Qed.
Print Assumptions C114_two_refuted.
(** The signature of the delta key is the value of the last such attribute, and there is none unless every attribute decodes. *)
Theorem C114_signature : forall L c s, delta_request_signature L c = Ok s <->
  attrs_decode L c /\ exists w, last_value REQSIG (i_attrs (r_info c)) w /\ l_sdec L w = Ok s.
Proof. exact signature_exact. Qed.
Print Assumptions C114_signature.
Example C114_signature_ex :
  is_ok (delta_request_signature toy (csr_of (the_csr None [usage [9]] false))) = true /\
  delta_request_signature toy {| r_info := set_attrs (r_info (csr_of (the_csr None [] false))) []; r_alg := r_alg (csr_of (the_csr None [] false)); r_sig := [] |} = Err EValueError.
Proof. split; vm_compute; reflexivity. Qed.
Print Assumptions C114_signature_ex.

Example C114_ex : exists c c' q, the_csr (Some [usage [1]; basic [2]]) [usage [9]] false = Ok c /\ received c c' /\ c' <> c /\
  verify_paired_csr toy c' = Ok q /\ q_spki q = spki_of ec1 /\ q_subject q = Some [8] /\
  delta_key_and_sender toy c' = Ok (s_pub ec1, [8]) /\
  (exists b, the_csr None [usage [9]] true = Ok b /\ verify_paired_csr toy b = Err EInvalidAltSignature) /\
  verify_paired_csr toy {| r_info := r_info c; r_alg := r_alg c; r_sig := [0] |} = Err EBadPOP.
Proof.
  destruct (the_csr (Some [usage [1]; basic [2]]) [usage [9]] false) as [c|] eqn:E; [|discriminate E].
  exists c, {| r_info := set_attrs (r_info c) (rev (i_attrs (r_info c))); r_alg := r_alg c; r_sig := r_sig c |}.
  vm_compute in E. injection E as <-. eexists. split; [reflexivity|].
  split; [split; [reflexivity|]; split; [reflexivity|]; eexists; split; [apply Permutation_rev | reflexivity]|].
  split; [vm_compute; discriminate|]. split; [vm_compute; reflexivity|]. do 3 (split; [vm_compute; reflexivity|]). split; [|vm_compute; reflexivity].
  eexists. split; vm_compute; reflexivity.
Qed.
Print Assumptions C114_ex.

(** ** C115: issuing *)

(** What is issued: two certificates signed by the CA, for two different keys whose possession is proven, with the names asked for. *)
Theorem C115_issued : forall L c k is o p d, cham_ok L -> issue_paired L c k is o = Ok (p, d) ->
  exists q bp dp, base_proven L c /\ delta_proven L c q /\
    l_load L (i_spki (r_info c)) = Ok bp /\ l_load L (q_spki q) = Ok dp /\ p_verify bp = true /\ p_verify dp = true /\
    p_id dp <> p_id bp /\ size_allowed bp /\ size_allowed dp /\
    t_spki (c_tbs p) = i_spki (r_info c) /\ t_spki (c_tbs d) = q_spki q /\
    t_subject (c_tbs p) = i_subject (r_info c) /\ given (q_subject q) (i_subject (r_info c)) (t_subject (c_tbs d)) /\
    t_issuer (c_tbs p) = is /\ t_issuer (c_tbs d) = is /\
    t_serial (c_tbs p) = o_serial1 o /\ t_serial (c_tbs d) = o_serial2 o /\
    t_validity (c_tbs p) = o_validity o /\ t_validity (c_tbs d) = o_validity o /\
    c_alg p = t_alg (c_tbs p) /\ c_alg d = t_alg (c_tbs d) /\
    l_verify L (s_pub k) (c_alg p) (l_tbs L (c_tbs p)) (c_sig p) = Ok tt /\
    l_verify L (s_pub k) (c_alg d) (l_tbs L (c_tbs d)) (c_sig d) = Ok tt.
Proof. exact issued. Qed.
Print Assumptions C115_issued.
(** Two keys are accepted together exactly when both can verify, they differ and RSA keys have an allowed size. *)
Theorem C115_keys : forall b d, validate_keys b d = Ok tt <->
  p_verify b = true /\ p_verify d = true /\ p_id d <> p_id b /\ size_allowed d /\ size_allowed b.
Proof. exact keys_exact. Qed.
Print Assumptions C115_keys.
(** The paired certificate names the key of the delta certificate, unless the request brings a descriptor. *)
Theorem C115_delta_key : forall L c k is o p d, cham_ok L -> issue_paired L c k is o = Ok (p, d) -> ~ In DCD (ids (o_add o)) ->
  (forall xs, csr_extensions L (i_attrs (r_info c)) = Ok (Some xs) -> ~ In DCD (ids xs)) ->
  delta_public_key L p = Ok (t_spki (c_tbs d)).
Proof. exact issued_delta_key. Qed.
Print Assumptions C115_delta_key.
(** The extensions issued when both parts of the request have some. *)
Theorem C115_extensions : forall L c k is o p d q, cham_ok L -> issue_paired L c k is o = Ok (p, d) -> verify_paired_csr L c = Ok q ->
  both_extended L c q o -> own_extensions o ->
  exists xs bp dp, csr_extensions L (i_attrs (r_info c)) = Ok (Some xs) /\
    l_load L (t_spki (c_tbs p)) = Ok bp /\ l_load L (t_spki (c_tbs d)) = Ok dp /\
    carries L o bp xs (q_exts q) (others (t_exts (c_tbs p))) /\ carries L o dp (q_exts q) xs (t_exts (c_tbs d)).
Proof. exact issued_extensions. Qed.
Print Assumptions C115_extensions.
(** The extensions asked for in the base part are those of its first extension request. *)
Theorem C115_asked : forall L l xs, csr_extensions L l = Ok (Some xs) <-> exists v, first_value EXTREQ l v /\ l_xdec L v = Ok xs.
Proof. exact asked_exact. Qed.
Print Assumptions C115_asked.
(** Neither part of the request has extensions: both certificates get those of the CA and, on demand, the identifier of their
    own key. *)
Theorem C115_unasked : forall L c k is o p d q, issue_paired L c k is o = Ok (p, d) -> verify_paired_csr L c = Ok q ->
  ~ In EXTREQ (map a_type (i_attrs (r_info c))) -> q_exts q = [] ->
  exists bp dp x, l_load L (t_spki (c_tbs p)) = Ok bp /\ l_load L (t_spki (c_tbs d)) = Ok dp /\ x_id x = DCD /\
    t_exts (c_tbs p) = o_add o ++ requested_ski L o bp ++ [x] /\ t_exts (c_tbs d) = o_add o ++ requested_ski L o dp.
Proof. exact issued_unasked. Qed.
Print Assumptions C115_unasked.
(** Only the base part has extensions: the paired certificate gets these, possibly with a second key identifier, and none of
    the CA's own; the delta certificate gets those of the CA and, on demand, the identifier of its key. *)
Theorem C115_base_only : forall L c k is o p d q xs, issue_paired L c k is o = Ok (p, d) -> verify_paired_csr L c = Ok q ->
  csr_extensions L (i_attrs (r_info c)) = Ok (Some xs) -> q_exts q = [] ->
  exists dp x ski, l_load L (t_spki (c_tbs d)) = Ok dp /\ x_id x = DCD /\
    t_exts (c_tbs p) = xs ++ ski ++ [x] /\ (forall e, In e ski -> x_id e = SKI) /\
    t_exts (c_tbs d) = o_add o ++ requested_ski L o dp.
Proof. exact issued_base_only. Qed.
Print Assumptions C115_base_only.
(** Both parts have extensions: the key identifier of the delta certificate has the criticality the CA chose. *)
Theorem C115_critical : forall L c k is o p d q, issue_paired L c k is o = Ok (p, d) -> verify_paired_csr L c = Ok q ->
  both_extended L c q o -> own_extensions o ->
  forall e, In e (t_exts (c_tbs d)) -> x_id e = SKI -> x_crit e = o_crit o.
Proof. exact issued_critical. Qed.
Print Assumptions C115_critical.
Example C115_extensions_ex :
  (let c := csr_of (the_csr None [] false) in
   csr_extensions toy (i_attrs (r_info c)) = Ok None /\ q_exts (req_of c) = [] /\
   is_ok (issue_paired toy c rsa2 [1; 2] (the_opts "sha256")) = true) /\
  (let c := csr_of (the_csr (Some [usage [1]]) [] false) in
   csr_extensions toy (i_attrs (r_info c)) = Ok (Some [usage [1]]) /\ q_exts (req_of c) = [] /\
   is_ok (issue_paired toy c rsa2 [1; 2] (the_opts "sha256")) = true).
Proof. vm_compute. repeat split; reflexivity. Qed.
Print Assumptions C115_extensions_ex.

(** Then the delta certificate is had back from the paired one exactly when both are signed with the algorithm of the default
    hash, or the delta's differs from that and has no parameters; with the default hash it always is. *)
Theorem C115_rebuilds : forall L c k is o p d q, cham_ok L -> issue_paired L c k is o = Ok (p, d) -> verify_paired_csr L c = Ok q ->
  both_extended L c q o -> own_extensions o ->
  forall a, l_alg L k (Some "sha256") (o_pss o) = Ok a ->
  (rebuild L p = Ok d <->
   (t_alg (c_tbs d) = a /\ t_alg (c_tbs p) = a) \/ (t_alg (c_tbs d) <> a /\ g_par (t_alg (c_tbs d)) = None)).
Proof. exact issued_rebuilds. Qed.
Print Assumptions C115_rebuilds.
Theorem C115_default : forall L c k is o p d q a, cham_ok L -> issue_paired L c k is o = Ok (p, d) -> verify_paired_csr L c = Ok q ->
  both_extended L c q o -> own_extensions o -> o_hash o = "sha256" ->
  l_alg L k (Some "sha256") (o_pss o) = Ok a -> l_hash L (g_oid a) = Ok (Some "sha256") ->
  rebuild L p = Ok d.
Proof. exact issued_default. Qed.
Print Assumptions C115_default.
(** A second descriptor in the paired certificate comes from both parts of the request. *)
Theorem C115_descriptor : forall L c k is o p d, issue_paired L c k is o = Ok (p, d) -> ~ In DCD (ids (o_add o)) ->
  forall q, verify_paired_csr L c = Ok q ->
  (exists n, (length (filter (fun e => String.eqb (x_id e) DCD) (t_exts (c_tbs p))) = S (S n))%nat) ->
  exists xs, csr_extensions L (i_attrs (r_info c)) = Ok (Some xs) /\ In DCD (ids xs) /\ In DCD (ids (q_exts q)).
Proof. exact descriptor_reaches. Qed.
Print Assumptions C115_descriptor.

(** Another hash than the default one, with an RSA key: the delta certificate is not had back. *)
Theorem C115_hash_refuted : exists L c k o p d q, cham_ok L /\ issue_paired L c k [1; 2] o = Ok (p, d) /\ verify_paired_csr L c = Ok q /\
  both_extended L c q o /\ own_extensions o /\ is_ok (rebuild L p) = true /\ rebuild L p <> Ok d.
Proof.
  set (c := csr_of (the_csr (Some [usage [1]]) [usage [9]] false)).
  exists toy, c, rsa2, (the_opts "sha512"), (fst (issue c (the_opts "sha512"))), (snd (issue c (the_opts "sha512"))), (req_of c).
  split; [exact toy_ok|]. split; [vm_compute; reflexivity|]. split; [vm_compute; reflexivity|].
  split; [exists [usage [1]]; split; [vm_compute; reflexivity|]; split; [discriminate|]; split; [discriminate|]; split; [left; cbn; intuition discriminate | right; split; reflexivity]|].
  split; [split; [constructor|]; split; intros []|]. split; [vm_compute; reflexivity | vm_compute; discriminate].
Qed.
Print Assumptions C115_hash_refuted.
(** Only one part of the request has extensions: the delta certificate is not had back, and if it is the delta part, the paired
    certificate carries the key identifier of the delta key. *)
Theorem C115_one_part_refuted : exists L k o c1 p1 d1 c2 p2 d2, cham_ok L /\ own_extensions o /\ o_hash o = "sha256" /\
  issue_paired L c1 k [1; 2] o = Ok (p1, d1) /\ csr_extensions L (i_attrs (r_info c1)) = Ok None /\
  (exists e, get_extension (t_exts (c_tbs p1)) SKI = Some e /\ l_kdec L (x_val e) = Ok (l_ski L (s_pub ec1)) /\
     l_load L (t_spki (c_tbs p1)) = Ok (s_pub rsa1)) /\
  issue_paired L c2 k [1; 2] o = Ok (p2, d2) /\ (exists q, verify_paired_csr L c2 = Ok q /\ q_exts q = []) /\
  is_ok (rebuild L p2) = true /\ rebuild L p2 <> Ok d2 /\
  l_verify L (s_pub k) (c_alg d2) (l_tbs L (c_tbs d2)) (c_sig d2) = Ok tt /\
  (forall r, rebuild L p2 = Ok r -> l_verify L (s_pub k) (c_alg r) (l_tbs L (c_tbs r)) (c_sig r) = Err EInvalidSignature).
Proof.
  set (c1 := csr_of (the_csr None [usage [9]] false)). set (c2 := csr_of (the_csr (Some [usage [1]]) [] false)).
  exists toy, rsa2, (the_opts "sha256"), c1, (fst (issue c1 (the_opts "sha256"))), (snd (issue c1 (the_opts "sha256"))), c2,
    (fst (issue c2 (the_opts "sha256"))), (snd (issue c2 (the_opts "sha256"))).
  split; [exact toy_ok|]. split; [split; [constructor|]; split; intros []|]. split; [reflexivity|].
  split; [vm_compute; reflexivity|]. split; [vm_compute; reflexivity|].
  split; [exists (ski_ext toy (s_pub ec1) false); split; [vm_compute; reflexivity|]; split; vm_compute; reflexivity|].
  split; [vm_compute; reflexivity|]. split; [exists (req_of c2); split; vm_compute; reflexivity|].
  split; [vm_compute; reflexivity|]. split; [vm_compute; discriminate|]. split; [vm_compute; reflexivity|].
  intros r R. vm_compute in R. injection R as <-. vm_compute. reflexivity.
Qed.
Print Assumptions C115_one_part_refuted.
(** A descriptor asked for in both parts of the request is issued, and names a key of which nothing is proven as the delta key. *)
Theorem C115_injected_refuted : exists L c k o p d q, cham_ok L /\ issue_paired L c k [1; 2] o = Ok (p, d) /\ verify_paired_csr L c = Ok q /\
  own_extensions o /\ delta_public_key L p = Ok (spki_of ec2) /\ t_spki (c_tbs d) = spki_of ec1 /\ i_spki (r_info c) = spki_of rsa1.
Proof.
  pose (f := {| d_serial := 1; d_alg := None; d_issuer := None; d_validity := None; d_subject := None; d_spki := spki_of ec2; d_exts := []; d_sig := [0] |}).
  pose (e := {| x_id := DCD; x_crit := false; x_val := en c_dcd f |}).
  set (c := csr_of (the_csr (Some [usage [1]; e]) [usage [9]; e] false)).
  exists toy, c, rsa2, (the_opts "sha256"), (fst (issue c (the_opts "sha256"))), (snd (issue c (the_opts "sha256"))), (req_of c). split; [exact toy_ok|]. split; [vm_compute; reflexivity|]. split; [vm_compute; reflexivity|].
  split; [split; [constructor|]; split; intros []|]. split; [|split]; vm_compute; reflexivity.
Qed.
Print Assumptions C115_injected_refuted.
Example C115_ex : exists c p d q, the_csr (Some [usage [1]; basic [2]]) [usage [9]; basic [2]] false = Ok c /\
  issue_paired toy c rsa2 [1; 2] (the_opts "sha256") = Ok (p, d) /\ verify_paired_csr toy c = Ok q /\
  both_extended toy c q (the_opts "sha256") /\ own_extensions (the_opts "sha256") /\
  l_alg toy rsa2 (Some "sha256") false = Ok (an_alg "rsa-sha256" (Some [5; 0])) /\ l_hash toy "rsa-sha256" = Ok (Some "sha256") /\
  rebuild toy p = Ok d /\ delta_public_key toy p = Ok (spki_of ec1) /\
  ids (t_exts (c_tbs p)) = [SKI; "2.5.29.15"; "2.5.29.19"; DCD] /\ ids (t_exts (c_tbs d)) = [SKI; "2.5.29.15"; "2.5.29.19"] /\
  get_extension (t_exts (c_tbs p)) "2.5.29.15" = Some (usage [1]) /\ get_extension (t_exts (c_tbs d)) "2.5.29.15" = Some (usage [9]) /\
  validate_keys (s_pub rsa1) {| p_id := [15]; p_verify := true; p_rsa := Some 1024 |} = Err EBadCertTemplate.
Proof.
  set (c := csr_of (the_csr (Some [usage [1]; basic [2]]) [usage [9]; basic [2]] false)).
  exists c, (fst (issue c (the_opts "sha256"))), (snd (issue c (the_opts "sha256"))), (req_of c). split; [vm_compute; reflexivity|]. split; [vm_compute; reflexivity|]. split; [vm_compute; reflexivity|].
  split; [exists [usage [1]; basic [2]]; split; [vm_compute; reflexivity|]; split; [discriminate|]; split; [discriminate|]; split; [left; cbn; intuition discriminate | right; split; reflexivity]|].
  split; [split; [constructor|]; split; intros []|]. do 8 (split; [vm_compute; reflexivity|]). vm_compute. reflexivity.
Qed.
Print Assumptions C115_ex.
