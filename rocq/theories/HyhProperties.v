(** Handlers of the Mock CA for hybrid certificates: C157 - C161. *)
From Coq Require Import String.
From Verif Require Import Prelude PreludeFacts PyStr GenModel HyhModel HyhSpec HyhProofs.
From Verif Require MigModel CAModel.
Open Scope string_scope.
Open Scope Z_scope.
Open Scope list_scope.
Local Notation length := List.length.

(** ** Databases, libraries and requests for the examples; not a model of any code in /repo *)

Definition toy_looks (c : cert) : MigModel.looks :=
  {| MigModel.k_composite := bytes_eqb (firstn 1 c) [2];
     MigModel.k_exts := if bytes_eqb (firstn 1 c) [1] then ["id_ce_deltaCertificateDescriptor"] else if bytes_eqb (firstn 1 c) [3] then ["id_altSignatureExt"]
       else if bytes_eqb (firstn 1 c) [4] then ["id_relatedCert"] else [];
     MigModel.k_discovery := Ok false |}.
(** Certificates that end in 9 are revoked, in 8 updated. *)
Definition toyV : rev :=
  {| v_looks := toy_looks; v_revoked := fun c => bytes_eqb (skipn 1 c) [9]; v_updated := fun c => bytes_eqb (skipn 1 c) [8];
     v_key_bad := fun k _ => bytes_eqb k [9]; v_delta := fun c => Ok (7 :: skipn 2 c); v_delta_key := fun q => Ok (h_rest q, []);
     v_form4 := fun c => Ok c; v_related := fun _ _ => Err EValueError; v_discovered := fun _ => Ok None |}.
Definition toy_out (e : bool) (c : cert) : out := {| o_enc := e; o_extra := []; o_implicit := false; o_rest := c |}.
Definition toyL : lib :=
  {| l_ids := fun _ => Ok tt; l_csr_sig := fun _ => Ok tt; l_csr_cert := fun _ n _ => Ok ([4; n], [1; n]); l_cp := fun _ c => Ok (toy_out false c);
     l_key := fun q => Ok (if bytes_eqb (h_rest q) [5] then HybKem else Composite); l_pop := fun _ => Ok tt; l_cert := fun _ n _ _ _ => Ok ([4; n], [1; n]);
     l_answer := fun _ c => Ok (toy_out false c); l_encrypt := fun _ _ => Ok (toy_out true []); l_alt_key := fun _ => Ok (Some [6]); l_alt_sig := fun _ => Ok [7];
     l_kind := fun a => if String.eqb a "sig" then Ok "trad_signature" else Ok "mac";
     l_protect := fun h o => match h with ByTrad => Ok o | ByMac _ => Ok o | ByBoth => Err EValueError end; l_show := fun _ => "n";
     l_rev_sig := fun _ => Ok tt; l_conf := fun _ => Ok (toy_out false []); l_rr := fun _ => Ok (toy_out false []) |}.
Definition toyC : conf := {| c_cert := [10]; c_chain := [[10]; [11]]; c_mac := "pbmac1"; c_url := "u"; c_composite := true |}.
Definition rq (b : string) (c : cert) (i : bool) (a : string) (x : bytes) : hreq := {| h_body := b; h_extra := [c]; h_implicit := i; h_alg := Some a; h_rest := x |}.
Definition w0 : world := {| w_pub := {| t_certs := []; t_keys := []; t_sigs := [] |}; w_certs := []; w_wait := [] |}.

(** ** C157: revocation before a certificate is issued *)

Theorem C157_accepted :
  forall V q both,
  revoked_for_issuing V q both = Ok tt <->
  exists c, signer q c /\
  (kind V c None \/ kind V c (Some "catalyst") \/ kind V c (Some "composite-sig") \/
   (kind V c (Some "chameleon") /\ exists d x, v_delta V c = Ok d /\ valid V c /\ valid V d /\ v_delta_key V q = Ok x) \/
   (kind V c (Some "sun-hybrid") /\ exists f, v_form4 V c = Ok f /\ v_revoked V f = false)).
Proof. exact issuing_iff. Qed.
Print Assumptions C157_accepted.
Theorem C157_revoked :
  forall V q both c f, signer q c -> kind V c (Some "sun-hybrid") -> v_form4 V c = Ok f -> v_revoked V f = true ->
  revoked_for_issuing V q both = Err ECertRevoked.
Proof. exact issuing_sun. Qed.
Print Assumptions C157_revoked.
Example C157_accepted_ex :
  revoked_for_issuing toyV (rq "p10cr" [1; 0] false "sig" [5]) false = Ok tt /\ revoked_for_issuing toyV (rq "p10cr" [1; 9] false "sig" [5]) false = Err ECertRevoked /\
  revoked_for_issuing toyV (rq "p10cr" [1; 0; 9] false "sig" [5]) false = Err ECertRevoked /\
  signer (rq "ir" [3; 9] false "sig" []) [3; 9] /\ kind toyV [3; 9] (Some "sun-hybrid") /\ v_form4 toyV [3; 9] = Ok [3; 9] /\ v_revoked toyV [3; 9] = true.
Proof. repeat split. now exists []. Qed.
Print Assumptions C157_accepted_ex.

(** Finding: a revoked certificate with a composite signature key or of the catalyst kind is accepted. *)
Theorem C157_unchecked_refuted :
  forall V q both c k, signer q c -> kind V c (Some k) -> k = "catalyst" \/ k = "composite-sig" -> revoked_for_issuing V q both = Ok tt.
Proof. exact issuing_unchecked. Qed.
Print Assumptions C157_unchecked_refuted.
(** Finding: with a related certificate or one for certificate discovery every request is refused as not implemented, because the
    kinds have other names here. *)
Theorem C157_names_refuted :
  forall V q both c k, signer q c -> kind V c (Some k) -> k = "related-cert" \/ k = "cert-discovery" -> revoked_for_issuing V q both = Err ENotImplemented.
Proof. exact issuing_names. Qed.
Print Assumptions C157_names_refuted.
(** Finding: the answer about the delta key is not looked at; so another answer changes nothing. *)
Theorem C157_delta_key_refuted : forall V f q both, revoked_for_issuing (with_keys V f) q both = revoked_for_issuing V q both.
Proof. exact issuing_keys. Qed.
Print Assumptions C157_delta_key_refuted.
(** Finding: an updated certificate of the Sun scheme is like a current one. *)
Theorem C157_updated_refuted :
  forall V f q both c, signer q c -> kind V c (Some "sun-hybrid") -> revoked_for_issuing (with_updates V f) q both = revoked_for_issuing V q both.
Proof. exact issuing_updates. Qed.
Print Assumptions C157_updated_refuted.
(** Finding: the argument for the use of both certificates has no effect. *)
Theorem C157_both_refuted : forall V q b b', revoked_for_issuing V q b = revoked_for_issuing V q b'.
Proof. exact issuing_both. Qed.
Print Assumptions C157_both_refuted.
Example C157_refuted_ex :
  signer (rq "ir" [2; 9] false "sig" []) [2; 9] /\ kind toyV [2; 9] (Some "composite-sig") /\ v_revoked toyV [2; 9] = true /\
  signer (rq "ir" [4; 0] false "sig" []) [4; 0] /\ kind toyV [4; 0] (Some "related-cert") /\ valid toyV [4; 0] /\
  signer (rq "ir" [3; 8] false "sig" []) [3; 8] /\ kind toyV [3; 8] (Some "sun-hybrid") /\ v_updated toyV [3; 8] = true /\
  revoked_for_issuing toyV (rq "ir" [3; 8] false "sig" []) false = Ok tt /\
  delta_key_revoked toyV (rq "p10cr" [1; 0] false "sig" [9]) = Err EBadCertTemplate /\ revoked_for_issuing toyV (rq "p10cr" [1; 0] false "sig" [9]) false = Ok tt.
Proof. repeat split; now exists []. Qed.
Print Assumptions C157_refuted_ex.

(** ** C158: chameleon certificates and requests with several signatures *)

Theorem C158_accepted :
  forall V q both, cham_revoked V q both = Ok tt <->
  exists c d, signer q c /\ v_delta V c = Ok d /\ valid V c /\ (both = true -> valid V d).
Proof. exact cham_iff. Qed.
Print Assumptions C158_accepted.
Theorem C158_refused :
  forall V q both c d, signer q c -> v_delta V c = Ok d -> ~ (valid V c /\ (both = true -> valid V d)) -> cham_revoked V q both = Err ECertRevoked.
Proof. exact cham_refused. Qed.
Print Assumptions C158_refused.
Theorem C158_delta_key : forall V q, delta_key_revoked V q = Ok tt <-> exists k n, v_delta_key V q = Ok (k, n) /\ v_key_bad V k n = false.
Proof. exact delta_key_iff. Qed.
Print Assumptions C158_delta_key.
Theorem C158_delta_key_refused :
  forall V q k n, v_delta_key V q = Ok (k, n) -> v_key_bad V k n = true -> delta_key_revoked V q = Err EBadCertTemplate.
Proof. exact delta_key_refused. Qed.
Print Assumptions C158_delta_key_refused.
(** Finding: only a chameleon certificate is checked before a request with several signatures is verified. *)
Theorem C158_request_refuted :
  forall V q both, revoked_for_request V q both = Ok tt <->
  exists c, signer q c /\ (is_chameleon V c = true -> exists d, v_delta V c = Ok d /\ valid V c /\ (both = true -> valid V d)).
Proof. exact request_iff. Qed.
Print Assumptions C158_request_refuted.
Example C158_ex :
  cham_revoked toyV (rq "ir" [1; 0; 9] false "sig" []) false = Ok tt /\ cham_revoked toyV (rq "ir" [1; 0; 9] false "sig" []) true = Err ECertRevoked /\
  cham_revoked toyV (rq "ir" [1; 8] false "sig" []) false = Err ECertRevoked /\
  signer (rq "ir" [1; 8] false "sig" []) [1; 8] /\ v_delta toyV [1; 8] = Ok [7] /\ ~ valid toyV [1; 8] /\
  v_delta_key toyV (rq "p10cr" [1; 0] false "sig" [9]) = Ok ([9], []) /\ v_key_bad toyV [9] [] = true /\
  revoked_for_request toyV (rq "ir" [3; 9] false "sig" []) true = Ok tt /\ v_revoked toyV [3; 9] = true.
Proof. repeat split; [now exists [] | intros (_ & H); discriminate]. Qed.
Print Assumptions C158_ex.

(** ** C159: making and publishing a certificate of the Sun hybrid scheme *)

Theorem C159_made : forall L q n kl sl bad o c4 c1, build L q n kl sl bad = Ok (o, (c4, c1)) <-> made L q n kl sl bad o c4 c1.
Proof. exact build_iff. Qed.
Print Assumptions C159_made.
(** Either nothing happens, or the certificate is published with its key and signature under its number, where the locations in it
    point, and then the response is protected. *)
Theorem C159_step :
  forall L C s q n bad,
  (fst (process_request L C s q n bad) = s /\ exists e, snd (process_request L C s q n bad) = Err e) \/
  exists o c4 c1 k g, l_ids L q = Ok tt /\ made L q n (key_url L C n) (sig_url L C n) bad o c4 c1 /\
    l_alt_key L c1 = Ok (Some k) /\ l_alt_sig L c1 = Ok g /\ publishes s (fst (process_request L C s q n bad)) n c1 k g /\
    snd (process_request L C s q n bad) =
      if o_enc o then (let! r := sign L C q o false None in Ok (r, None, Some c4))
      else if h_implicit q then (let! r := sign L C q (confirmed o) false (Some c1) in Ok (r, Some c4, None))
      else (let! r := sign L C q o false (Some c1) in Ok (r, None, Some c4)).
Proof. exact request_step. Qed.
Print Assumptions C159_step.
Theorem C159_success :
  forall L C s q n bad o c4 c1 k g, l_ids L q = Ok tt -> made L q n (key_url L C n) (sig_url L C n) bad o c4 c1 ->
  l_alt_key L c1 = Ok (Some k) -> l_alt_sig L c1 = Ok g ->
  publishes s (fst (process_request L C s q n bad)) n c1 k g /\
  snd (process_request L C s q n bad) =
      if o_enc o then (let! r := sign L C q o false None in Ok (r, None, Some c4))
      else if h_implicit q then (let! r := sign L C q (confirmed o) false (Some c1) in Ok (r, Some c4, None))
      else (let! r := sign L C q o false (Some c1) in Ok (r, None, Some c4)).
Proof. exact request_makes. Qed.
Print Assumptions C159_success.
Example C159_ex :
  let q := rq "ir" [3; 0] true "sig" [] in
  l_ids toyL q = Ok tt /\ made toyL q 12 (key_url toyL toyC 12) (sig_url toyL toyC 12) false (toy_out false [4; 12]) [4; 12] [1; 12] /\
  snd (process_request toyL toyC (w_pub w0) q 12 false) =
    Ok ({| o_enc := false; o_extra := [[10]; [1; 12]; [11]]; o_implicit := true; o_rest := [4; 12] |}, Some [4; 12], None) /\
  t_sigs (fst (process_request toyL toyC (w_pub w0) q 12 false)) = [(12, [7])] /\
  snd (process_request toyL toyC (w_pub w0) (rq "ir" [3; 0] true "sig" [5]) 12 false) =
    Ok ({| o_enc := true; o_extra := [[10]; [11]]; o_implicit := false; o_rest := [] |}, None, Some [4; 12]).
Proof. cbv zeta. split; [reflexivity|]. split; [|repeat split]. right. left. repeat split. now left. Qed.
Print Assumptions C159_ex.
(** Finding: a key to encrypt is only possible in an ir; in a cr or kur the builder of the response reads the wrong body. *)
Theorem C159_kem_refuted :
  forall L q n kl sl bad x, In (h_body q) ["cr"; "kur"; "crr"] -> l_key L q = Ok HybKem -> l_cert L q n kl sl false = Ok x ->
  build L q n kl sl bad = Err EPyAsn1.
Proof. exact build_kem. Qed.
Print Assumptions C159_kem_refuted.
(** Finding: no bad signature is made for a key to encrypt. *)
Theorem C159_bad_signature_refuted :
  forall L q n kl sl bad, h_body q <> "p10cr" -> l_key L q = Ok HybKem -> build L q n kl sl bad = build L q n kl sl false.
Proof. exact build_bad. Qed.
Print Assumptions C159_bad_signature_refuted.
(** Finding: the locations are not used for a CSR. *)
Theorem C159_locations_refuted : forall L q n kl sl kl' sl' bad, h_body q = "p10cr" -> build L q n kl sl bad = build L q n kl' sl' bad.
Proof. exact build_csr. Qed.
Print Assumptions C159_locations_refuted.
Example C159_refuted_ex :
  let q := rq "cr" [3; 0] true "sig" [5] in
  In (h_body q) ["cr"; "kur"; "crr"] /\ l_key toyL q = Ok HybKem /\ l_cert toyL q 12 "a" "b" false = Ok ([4; 12], [1; 12]) /\ h_body q <> "p10cr" /\
  h_body (rq "p10cr" [3; 0] true "sig" []) = "p10cr".
Proof. repeat split; [now left | discriminate]. Qed.
Print Assumptions C159_refuted_ex.

(** ** C160: the protection of a response, and serial numbers *)

Theorem C160_mac :
  forall L C q o both second a, by_mac L q a ->
  exists o', more_certs o o' (opt second ++ c_chain C) /\
  sign L C q o both second =
    l_protect L (ByMac (if String.eqb a "id_PBMAC1" then "pbmac1" else if String.eqb a "id_PasswordBasedMac" then "password_based_mac" else c_mac C)) o'.
Proof. intros L C q o both second a H. exists (extended o (opt second ++ c_chain C)). split; [apply more | exact (sign_mac L C q o both second a H)]. Qed.
Print Assumptions C160_mac.
Theorem C160_signature :
  forall L C q o both second, not_by_mac L q ->
  exists o', more_certs o o' (c_cert C :: opt second ++ tl (c_chain C)) /\ sign L C q o both second = l_protect L (if both then ByBoth else ByTrad) o'.
Proof.
  intros L C q o both second H. exists (extended o (c_cert C :: opt second ++ tl (c_chain C))). split; [apply more | exact (sign_sig L C q o both second H)].
Qed.
Print Assumptions C160_signature.
Example C160_ex :
  by_mac toyL (rq "ir" [3; 0] true "id_PBMAC1" []) "id_PBMAC1" /\ not_by_mac toyL (rq "ir" [3; 0] true "sig" []) /\
  sign toyL toyC (rq "ir" [3; 0] true "id_PBMAC1" []) (toy_out false []) false (Some [5]) =
    Ok {| o_enc := false; o_extra := [[5]; [10]; [11]]; o_implicit := false; o_rest := [] |}.
Proof. repeat split. right. exists "sig", "trad_signature". repeat split. discriminate. Qed.
Print Assumptions C160_ex.
(** The Mock CA never protects a response with both keys. *)
Theorem C160_traditional : forall V L f C w q r bad, process V (with_both L f) C w q r bad = process V L C w q r bad.
Proof. exact process_both. Qed.
Print Assumptions C160_traditional.
Theorem C160_serial : forall s r n, serial_number s r = Ok n <-> chosen s r n.
Proof. exact serial_iff. Qed.
Print Assumptions C160_serial.
Theorem C160_serial_total : forall s r, exists n, serial_number s r = Ok n.
Proof. intros s r. destruct (serial_ok s r) as (n & H & _). eauto. Qed.
Print Assumptions C160_serial_total.
(** Finding: the number is in use if all hundred that are drawn are. *)
Theorem C160_unique_refuted :
  forall s r, (forall j, (j < 100)%nat -> in_use s (r j)) -> exists n, serial_number s r = Ok n /\ in_use s n.
Proof. intros s r H. exists (r 99%nat). split; [apply serial_iff; right; auto | apply H; auto with arith]. Qed.
Print Assumptions C160_unique_refuted.
Example C160_serial_ex :
  let s := {| t_certs := [(7, [1])]; t_keys := []; t_sigs := [] |} in
  serial_number s (fun i => 7 + Z.of_nat i) = Ok 8 /\ (forall j, (j < 100)%nat -> in_use s ((fun _ => 7) j)).
Proof. cbv zeta. split; [reflexivity|]. intros j _. exists [1]. now left. Qed.
Print Assumptions C160_serial_ex.

(** ** C161: a request to the Mock CA for the Sun hybrid scheme *)

Theorem C161_issued :
  forall V L C w q r bad w' o, to_issue q -> process V L C w q r bad = (w', Ok (Answer o)) ->
  passes V L q /\ exists n c4 c1 o0 k g,
  chosen (w_pub w) r n /\ made L q n (key_url L C n) (sig_url L C n) bad o0 c4 c1 /\
  l_alt_key L c1 = Ok (Some k) /\ l_alt_sig L c1 = Ok g /\ publishes (w_pub w) (w_pub w') n c1 k g /\
  ((h_implicit q = true /\ o_enc o0 = false /\ w_certs w' = (c4, true) :: w_certs w /\ w_wait w' = w_wait w /\
    sign L C q (confirmed o0) false (Some c1) = Ok o) \/
   ((h_implicit q = false \/ o_enc o0 = true) /\ w_certs w' = (c4, false) :: w_certs w /\ w_wait w' = c4 :: w_wait w /\
    sign L C q o0 false (if o_enc o0 then None else Some c1) = Ok o)).
Proof. exact process_issued. Qed.
Print Assumptions C161_issued.
Theorem C161_answers :
  forall V L C w q r bad n o c4 c1 k g, passes V L q -> to_issue q -> c_composite C = true -> chosen (w_pub w) r n -> l_ids L q = Ok tt ->
  made L q n (key_url L C n) (sig_url L C n) bad o c4 c1 -> l_alt_key L c1 = Ok (Some k) -> l_alt_sig L c1 = Ok g ->
  snd (process V L C w q r bad) =
  match sign L C q (if h_implicit q && negb (o_enc o) then confirmed o else o) false (if o_enc o then None else Some c1) with
  | Ok x => Ok (Answer x)
  | Err e => if CAModel.is_cmp e then Ok (Failure e) else Err e
  end.
Proof. exact process_answers. Qed.
Print Assumptions C161_answers.
(** No certificate is recorded without an answer, or for another body. *)
Theorem C161_failed :
  forall V L C w q r bad, (forall o, snd (process V L C w q r bad) <> Ok (Answer o)) \/ ~ to_issue q ->
  let w' := fst (process V L C w q r bad) in w_certs w' = w_certs w /\ w_wait w' = w_wait w.
Proof. exact process_failed. Qed.
Print Assumptions C161_failed.
Theorem C161_revoked :
  forall V L C w q r bad, h_alg q <> None -> not_by_mac L q -> (exists c k, signer q c /\ kind V c k) ->
  revoked_for_issuing V q false = Err ECertRevoked -> process V L C w q r bad = (w, Ok (Failure ECertRevoked)).
Proof. exact process_revoked. Qed.
Print Assumptions C161_revoked.
Theorem C161_confirmation :
  forall V L C w q r bad, passes V L q -> h_body q = "certConf" ->
  process V L C w q r bad = (w, let! o := l_conf L q in let! x := sign L C q o false None in Ok (Answer x)).
Proof. exact process_conf. Qed.
Print Assumptions C161_confirmation.
(** A revocation request is handled with the certificate of the signer in form 4, after its protection is verified. *)
Theorem C161_revocation :
  forall V L C w q r bad o, passes V L q -> h_body q = "rr" ->
  (snd (process V L C w q r bad) = Ok (Answer o) <->
   l_rev_sig L q = Ok tt /\ exists c f o0, signer q c /\ v_form4 V c = Ok f /\ l_rr L (in_form4 q f) = Ok o0 /\ sign L C (in_form4 q f) o0 false None = Ok o).
Proof. exact process_rev. Qed.
Print Assumptions C161_revocation.
Lemma toy_passes b x i : passes toyV toyL (rq b [3; 0] i "sig" x).
Proof.
  exists [3; 0], (Some "sun-hybrid"). split; [now exists []|]. split; [reflexivity|]. right. split; [discriminate|]. split; [|reflexivity].
  right. exists "sig", "trad_signature". repeat split. discriminate.
Qed.
Example C161_ex :
  let q := rq "ir" [3; 0] true "sig" [] in
  passes toyV toyL q /\ to_issue q /\ w_certs (fst (process toyV toyL toyC w0 q (fun _ => 12) false)) = [([4; 12], true)] /\
  snd (process toyV toyL toyC w0 q (fun _ => 12) false) =
    Ok (Answer {| o_enc := false; o_extra := [[10]; [1; 12]; [11]]; o_implicit := true; o_rest := [4; 12] |}) /\
  w_wait (fst (process toyV toyL toyC w0 (rq "ir" [3; 0] false "sig" []) (fun _ => 12) false)) = [[4; 12]] /\
  process toyV toyL toyC w0 (rq "ir" [3; 9] false "sig" []) (fun _ => 12) false = (w0, Ok (Failure ECertRevoked)) /\
  passes toyV toyL (rq "rr" [3; 0] true "sig" []) /\ ~ to_issue (rq "rr" [3; 0] true "sig" []) /\
  snd (process toyV toyL toyC w0 (rq "rr" [3; 0] true "sig" []) (fun _ => 12) false) =
    Ok (Answer {| o_enc := false; o_extra := [[10]; [11]]; o_implicit := false; o_rest := [] |}).
Proof.
  cbv zeta. split; [apply toy_passes|]. split; [split; discriminate|]. split; [reflexivity|]. split; [reflexivity|]. split; [reflexivity|]. split; [reflexivity|].
  split; [apply toy_passes|]. split; [intros (_ & H); now apply H | reflexivity].
Qed.
Print Assumptions C161_ex.
(** Finding: some requests are not answered at all, neither by a response nor by an error message: those without protection, those
    signed with a related certificate or one for certificate discovery, and those for a key to encrypt in a cr or kur. *)
Theorem C161_unprotected_refuted : forall V L C w q r bad, h_alg q = None -> exists e, process V L C w q r bad = (w, Err e).
Proof. exact process_unprotected. Qed.
Print Assumptions C161_unprotected_refuted.
Theorem C161_kinds_refuted :
  forall V L C w q r bad c k, h_alg q <> None -> not_by_mac L q -> signer q c -> kind V c (Some k) -> k = "related-cert" \/ k = "cert-discovery" ->
  process V L C w q r bad = (w, Err ENotImplemented).
Proof. exact process_names. Qed.
Print Assumptions C161_kinds_refuted.
Theorem C161_kem_refuted :
  forall V L C w q r bad, passes V L q -> c_composite C = true -> l_ids L q = Ok tt -> In (h_body q) ["cr"; "kur"; "crr"] ->
  l_key L q = Ok HybKem -> (forall n kl sl, exists x, l_cert L q n kl sl false = Ok x) -> process V L C w q r bad = (published w (w_pub w), Err EPyAsn1).
Proof. exact process_kem. Qed.
Print Assumptions C161_kem_refuted.
(** Finding: the certificate is published even if its response cannot be protected. *)
Theorem C161_published_refuted :
  forall V L C w q r bad n o c4 c1 k g, passes V L q -> to_issue q -> c_composite C = true -> chosen (w_pub w) r n -> l_ids L q = Ok tt ->
  made L q n (key_url L C n) (sig_url L C n) bad o c4 c1 -> l_alt_key L c1 = Ok (Some k) -> l_alt_sig L c1 = Ok g ->
  publishes (w_pub w) (w_pub (fst (process V L C w q r bad))) n c1 k g.
Proof. exact process_leaves. Qed.
Print Assumptions C161_published_refuted.
Definition toyB : lib :=
  {| l_ids := l_ids toyL; l_csr_sig := l_csr_sig toyL; l_csr_cert := l_csr_cert toyL; l_cp := l_cp toyL; l_key := l_key toyL; l_pop := l_pop toyL;
     l_cert := l_cert toyL; l_answer := l_answer toyL; l_encrypt := l_encrypt toyL; l_alt_key := l_alt_key toyL; l_alt_sig := l_alt_sig toyL;
     l_kind := l_kind toyL; l_protect := fun _ _ => Err EBadConfig; l_show := l_show toyL; l_rev_sig := l_rev_sig toyL; l_conf := l_conf toyL; l_rr := l_rr toyL |}.
Example C161_refuted_ex :
  process toyV toyL toyC w0 {| h_body := "ir"; h_extra := [[3; 0]]; h_implicit := true; h_alg := None; h_rest := [] |} (fun _ => 12) false = (w0, Err EValueError) /\
  process toyV toyL toyC w0 (rq "ir" [4; 0] true "sig" []) (fun _ => 12) false = (w0, Err ENotImplemented) /\ kind toyV [4; 0] (Some "related-cert") /\
  passes toyV toyL (rq "cr" [3; 0] true "sig" [5]) /\ process toyV toyL toyC w0 (rq "cr" [3; 0] true "sig" [5]) (fun _ => 12) false = (w0, Err EPyAsn1) /\
  snd (process toyV toyB toyC w0 (rq "ir" [3; 0] true "sig" []) (fun _ => 12) false) = Ok (Failure EBadConfig) /\
  t_certs (w_pub (fst (process toyV toyB toyC w0 (rq "ir" [3; 0] true "sig" []) (fun _ => 12) false))) = [(12, [1; 12])].
Proof. repeat split. apply toy_passes. Qed.
Print Assumptions C161_refuted_ex.
