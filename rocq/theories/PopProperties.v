(** Certificate requests: C101 to C109. *)
From Coq Require Import String Ascii Lia Permutation.
From Verif Require Import Prelude PreludeFacts PyStr CompLoadModel HdrModel ProtTab ProtModel ProtSpec ProtHybSpec ProtToy PopModel PopSpec PopProofs PopIssue PopMore PopToy.
Open Scope string_scope.
Open Scope Z_scope.
Local Notation length := List.length.

(** ** C101: certificates need a proof of possession *)

(** A request that is the only one of its message. *)
Theorem C101_single : forall E m o q c, keys_known E -> In (b_name m) own_bodies -> b_reqs m = [q] ->
  process_all E m o = Ok [(r_id (q_req q), c)] -> entitled E m o q q c.
Proof.
  intros E m o q c W B Q H. apply all_exact in H as (_ & H). specialize (H 0%nat _ eq_refl).
  assert (N : nth_error (b_reqs m) 0 = Some q) by (rewrite Q; reflexivity). exact (sound_first _ _ _ _ _ _ _ W B N N H).
Qed.
Print Assumptions C101_single.
(** In a message with several requests the signature looked at is the first one's. *)
Theorem C101_batch_partial : forall E m i o q w c, keys_known E -> In (b_name m) own_bodies ->
  nth_error (b_reqs m) i = Some q -> nth_error (b_reqs m) 0 = Some w -> process_one E m i o = Ok c -> entitled E m o w q c.
Proof. exact sound_first. Qed.
Print Assumptions C101_batch_partial.
(** Whatever the server answers. *)
Theorem C101_server_partial : forall E m o kem same r x c, keys_known E -> serve E m o kem same = Ok r -> In (x, c) r ->
  exists o', vouched E m o' x c /\ (b_name m = "kur" /\ kem = true \/ o_ra o' = o_ra o /\ o_chain o' = o_chain o).
Proof. exact serve_vouched. Qed.
Print Assumptions C101_server_partial.
Theorem C101_server_single : forall E m o kem same r x c q, keys_known E -> serve E m o kem same = Ok r -> b_reqs m = [q] ->
  b_csr m = None -> In (x, c) r ->
  exists o', ((entitled E m o' q q c) \/ (exists t, signed E q /\ t_key t = t_key (r_tmpl (q_req q)) /\ c = IPlain t)) /\
    (b_name m = "kur" /\ kem = true \/ o_ra o' = o_ra o /\ o_chain o' = o_chain o).
Proof. exact serve_single. Qed.
Print Assumptions C101_server_single.
(** Exactly when the request at an index gets a certificate, and which one. *)
Theorem C101_exact : forall E m i o q w c, keys_known E -> In (b_name m) own_bodies ->
  nth_error (b_reqs m) i = Some q -> nth_error (b_reqs m) 0 = Some w ->
  (process_one E m i o = Ok c <->
   exists alt, registered E q alt /\ named (r_tmpl (q_req q)) /\ good_key E (o_lw o) (r_tmpl (q_req q)) /\
     e_controls E i (q_req q) = Ok tt /\ named (in_force q alt) /\ good_key E true (in_force q alt) /\
     answers E m o w q (in_force q alt) c).
Proof. exact process_exact. Qed.
Print Assumptions C101_exact.
Lemma bad_unsigned : ~ signed E0 (bad_req 1 9).
Proof.
  intro H. apply (pop_sig_exact E0 (msg_of "cr" [bad_req 1 9] [] false) 0 (bad_req 1 9) E0_keys) in H; [|right; now left|reflexivity].
  vm_compute in H. discriminate.
Qed.
(** The second request of a cr gets its certificate although its signature is wrong. *)
Theorem C101_batch_refuted : exists E m o q t, keys_known E /\ In q (b_reqs m) /\ (exists a v, q_popo q = Some (PoSig a v)) /\ ~ signed E q /\
  t_key t = t_key (r_tmpl (q_req q)) /\ exists r, serve E m o false false = Ok r /\ In (r_id (q_req q), IPlain t) r.
Proof.
  exists E0, (msg_of "cr" [rsa_req 0 5; bad_req 1 9] [] false), o0, (bad_req 1 9), (tmpl (TKey [0; 9])).
  split; [exact E0_keys|]. split; [right; now left|]. split; [eexists; eexists; reflexivity|]. split; [exact bad_unsigned|].
  split; [reflexivity|]. eexists. split; [vm_compute; reflexivity|]. right. now left.
Qed.
Print Assumptions C101_batch_refuted.
Example C101_ex :
  process_all E0 (msg_of "ir" [rsa_req 0 5] [] false) o0 = Ok [(0, IPlain (tmpl (TKey [0; 5])))] /\
  process_all E0 (msg_of "ir" [bad_req 0 5] [] false) o0 = Err EBadPOP /\
  serve E0 (msg_of "cr" [bad_req 0 9; rsa_req 1 5] [] false) o0 false false = Err EBadPOP /\
  entitled E0 (msg_of "ir" [rsa_req 0 5] [] false) o0 (rsa_req 0 5) (rsa_req 0 5) (IPlain (tmpl (TKey [0; 5]))).
Proof.
  do 3 (split; [vm_compute; reflexivity|]). apply (C101_single E0 _ o0 _ _ E0_keys); [now left|reflexivity|vm_compute; reflexivity].
Qed.
Print Assumptions C101_ex.

(** ** C102: the verification of the proof of possession *)

Theorem C102_first : forall E m o q, keys_known E -> In (b_name m) own_bodies -> nth_error (b_reqs m) 0 = Some q ->
  (verify_popo E m 0 o = Ok tt <-> pop_ok E m o q q).
Proof. intros E m o q W B N. exact (popo_exact E m 0 o q q W B N N). Qed.
Print Assumptions C102_first.
Theorem C102_other_partial : forall E m i o q w, keys_known E -> In (b_name m) own_bodies -> nth_error (b_reqs m) i = Some q ->
  nth_error (b_reqs m) 0 = Some w -> (verify_popo E m i o = Ok tt <-> pop_ok E m o w q).
Proof. exact popo_exact. Qed.
Print Assumptions C102_other_partial.
Theorem C102_signature : forall E m i q, keys_known E -> In (b_name m) own_bodies -> nth_error (b_reqs m) i = Some q ->
  (verify_sig_pop E m i = Ok tt <-> signed E q).
Proof. exact sig_pop_exact. Qed.
Print Assumptions C102_signature.
(** A valid signature of the second request is refused if the first request has none. *)
Theorem C102_other_refuted : exists E m o q, keys_known E /\ nth_error (b_reqs m) 1 = Some q /\ signed E q /\ verify_popo E m 1 o = Err EBadPOP.
Proof.
  exists E0, (msg_of "ir" [q_with (creq 0 TAbsent) None None; rsa_req 1 5] [] false), o0, (rsa_req 1 5).
  split; [exact E0_keys|]. split; [reflexivity|]. split; [|vm_compute; reflexivity].
  apply (sig_pop_exact E0 (msg_of "ir" [rsa_req 1 5] [] false) 0 (rsa_req 1 5) E0_keys); [now left|reflexivity|vm_compute; reflexivity].
Qed.
Print Assumptions C102_other_refuted.
(** Cross-certification requests are refused whatever they contain. *)
Theorem C102_cross_refuted : forall E m i o, b_name m = "ccr" -> verify_popo E m i o = Err EValueError /\ verify_sig_pop E m i = Err EKeyError.
Proof. exact ccr_refused. Qed.
Print Assumptions C102_cross_refuted.
Definition kem_req (x n sub : Z) : reqmsg := q_with (creq x (TKey [3; n])) (Some (PoEnc (PpNext sub))) None.
Definition x_req (x n : Z) (p : privpop) : reqmsg := q_with (creq x (TKey [4; n])) (Some (PoAgree p)) None.
Example C102_ex :
  verify_popo E0 (msg_of "ir" [kem_req 0 5 0] [] false) 0 o0 = Ok tt /\
  verify_popo E0 (msg_of "ir" [q_with (creq 0 (TKey [0; 5])) (Some (PoEnc (PpNext 0))) None] [] false) 0 o0 = Err EValueError /\
  verify_popo E0 (msg_of "kur" [x_req 0 5 (PpNext 0)] [] false) 0 o0 = Ok tt /\
  verify_popo E0 (msg_of "kur" [q_with (creq 0 TAbsent) None None] [] false) 0 o0 = Ok tt /\
  verify_popo E0 (msg_of "kur" [q_with (creq 0 (TKey [0; 5])) None None] [] false) 0 o0 = Err EBadPOP /\
  pop_ok E0 (msg_of "ir" [rsa_req 0 5] [] false) o0 (rsa_req 0 5) (rsa_req 0 5).
Proof.
  do 5 (split; [vm_compute; reflexivity|]). apply (C102_first E0 _ o0 _ E0_keys); [now left|reflexivity|vm_compute; reflexivity].
Qed.
Print Assumptions C102_ex.

(** ** C103: an alternative template of an RA *)

Theorem C103_exact : forall E q alt, reg_info E q = Ok alt <-> registered E q alt.
Proof. exact reg_info_exact. Qed.
Print Assumptions C103_exact.
(** The key of a request is kept whatever regInfo says. *)
Theorem C103_key : forall E m i o q d c, keys_known E -> In (b_name m) own_bodies -> nth_error (b_reqs m) i = Some q ->
  t_key (r_tmpl (q_req q)) = TKey d -> process_one E m i o = Ok c -> t_key (template_of c) = TKey d.
Proof.
  intros E m i o q d c W B N T H. destruct (first_exists _ _ _ N) as (w & N0).
  destruct (proj1 (process_exact E m i o q w c W B N N0) H) as (alt & R & _ & _ & _ & _ & _ & A).
  destruct A as [C Cw T' CE|Q RA BD|k a v Q A F Sg BD|M A BD|k p D A Q BD|k Q A K WR BD|k n own Q A K O WR BD]; cbn [template_of];
    try exact T; exact (in_force_key _ _ _ _ R T).
Qed.
Print Assumptions C103_key.
(** A request without proof gets a certificate for a generated key only, whatever regInfo says. *)
Theorem C103_no_proof : forall E m i o q c, keys_known E -> In (b_name m) own_bodies -> nth_error (b_reqs m) i = Some q ->
  q_popo q = None -> process_one E m i o = Ok c ->
  c = ICentral (r_tmpl (q_req q)) /\ (forall d, t_key (r_tmpl (q_req q)) <> TKey d) /\
  (forall r d, alternative E q r -> t_key (r_tmpl r) <> TKey d).
Proof. exact no_pop. Qed.
Print Assumptions C103_no_proof.
(** For signed and RA-verified requests the alternative template is the one in force. *)
Theorem C103_in_force : forall E m i o q r c, keys_known E -> In (b_name m) own_bodies -> nth_error (b_reqs m) i = Some q ->
  alternative E q r -> (q_popo q = Some PoRa \/ exists a v, q_popo q = Some (PoSig a v)) -> process_one E m i o = Ok c -> c = IPlain (r_tmpl r).
Proof.
  intros E m i o q r c W B N AL P H. destruct (first_exists _ _ _ N) as (w & N0).
  destruct (proj1 (process_exact E m i o q w c W B N N0) H) as (alt & R & _ & _ & _ & _ & _ & A).
  assert (alt = Some r).
  { pose proof AL as (l & v & QI & F & D & X & _). unfold registered in R. rewrite QI in R. destruct R as ([(NE & _)|(r' & AL' & ->)] & _).
    - destruct F as (l1 & x & l2 & -> & TY & _). exfalso. apply (NE x); [apply in_or_app; right; now left|exact TY].
    - destruct AL' as (l3 & v3 & Q3 & F3 & _ & D3 & _). assert (l3 = l) by congruence. subst l3. apply first_some in F, F3.
      assert (v3 = v) by congruence. subst v3. congruence. }
  subst alt.
  destruct A as [(C & _) Cw T' CE|Q RA BD|k a v Q A F Sg BD|(k & own & ss & a' & v' & data & A & Q & _) _ _|k p D A [(Q & _)|(Q & _)] BD|k Q A K WR BD|k n own Q A K O WR BD];
    try reflexivity; exfalso; destruct P as [P|(a0 & v0 & P)]; congruence.
Qed.
Print Assumptions C103_in_force.
Definition alt_info (b : bytes) : option (list control) := Some [{| ct_type := "id_regInfo_certReq"; ct_val := b |}].
Lemma alt_kem : alternative E0 (q_with (creq 0 TAbsent) None (alt_info [0; 0])) (creq 0 TAbsent).
Proof.
  exists [{| ct_type := "id_regInfo_certReq"; ct_val := [0; 0] |}], [0; 0]. split; [reflexivity|]. split.
  - exists [], {| ct_type := "id_regInfo_certReq"; ct_val := [0; 0] |}, []. do 3 (split; [reflexivity|]). intros d [].
  - split; [constructor; [intros []|constructor]|]. split; [reflexivity|]. split; [reflexivity|]. now left.
Qed.
(** Requests with another proof and requests for a generated key get a certificate for the original template. The
    template of the RA differs from it here by its subject alternative name. *)
Definition E_alt : env := {|
  e_lib := toy; e_rnd := toy_rnd; e_load := load_pop; e_params := e_params E0; e_bits := e_bits E0; e_same := e_same E0;
  e_stf := e_stf E0; e_gen := e_gen E0; e_enc := e_enc E0;
  e_dec := fun b => match b with
                    | [0; 0] => Some ({| r_id := 0; r_tmpl := set_bc (tmpl TAbsent) false; r_controls := None |}, [])
                    | [0; 1] => Some ({| r_id := 0; r_tmpl := set_bc (tmpl (TKey [3; 5])) false; r_controls := None |}, [])
                    | _ => None end;
  e_utf8 := e_utf8 E0; e_old := e_old E0; e_issuer := e_issuer E0; e_serial := e_serial E0; e_controls := e_controls E0; e_ras := e_ras E0;
  e_eku := e_eku E0; e_ku := e_ku E0; e_chain := e_chain E0; e_self := e_self E0; e_openssl := e_openssl E0; e_build := e_build E0;
  e_central := e_central E0; e_agree := e_agree E0; e_wrap := e_wrap E0; e_open := e_open E0 |}.
Theorem C103_ignored_refuted : exists E m1 m2 o q1 q2 r1 r2 k, keys_known E /\ b_reqs m1 = [q1] /\ b_reqs m2 = [q2] /\
  alternative E q1 r1 /\ alternative E q2 r2 /\ t_bc (r_tmpl r1) = Some false /\ t_bc (r_tmpl r2) = Some false /\
  (let! l := process_all E m1 o in Ok (List.map (fun x => t_bc (template_of (snd x))) l)) = Ok [None] /\
  process_all E m2 o = Ok [(0, IEnc (r_tmpl (q_req q2)) k)] /\ t_bc (r_tmpl (q_req q2)) = None.
Proof.
  exists E_alt, (msg_of "ir" [q_with (creq 0 TAbsent) None (alt_info [0; 0])] [] false),
    (msg_of "ir" [q_with (creq 0 (TKey [3; 5])) (Some (PoEnc (PpNext 0))) (alt_info [0; 1])] [] false), o0,
    (q_with (creq 0 TAbsent) None (alt_info [0; 0])), (q_with (creq 0 (TKey [3; 5])) (Some (PoEnc (PpNext 0))) (alt_info [0; 1])),
    {| r_id := 0; r_tmpl := set_bc (tmpl TAbsent) false; r_controls := None |},
    {| r_id := 0; r_tmpl := set_bc (tmpl (TKey [3; 5])) false; r_controls := None |}, {| k_kind := KKem "ml-kem"; k_id := 5 |}.
  split; [exact E0_keys|]. do 2 (split; [reflexivity|]). split; [|split].
  - eexists; exists [0; 0]. split; [reflexivity|]. split; [exists [], {| ct_type := "id_regInfo_certReq"; ct_val := [0; 0] |}, []; do 3 (split; [reflexivity|]); intros d []|].
    split; [constructor; [intros []|constructor]|]. split; [reflexivity|]. split; [reflexivity|]. now left.
  - eexists; exists [0; 1]. split; [reflexivity|]. split; [exists [], {| ct_type := "id_regInfo_certReq"; ct_val := [0; 1] |}, []; do 3 (split; [reflexivity|]); intros d []|].
    split; [constructor; [intros []|constructor]|]. split; [reflexivity|]. split; [reflexivity|]. now right.
  - do 2 (split; [reflexivity|]). split; [vm_compute; reflexivity|]. split; [vm_compute; reflexivity|reflexivity].
Qed.
Print Assumptions C103_ignored_refuted.
Example C103_ex :
  process_all E0 (msg_of "ir" [q_with (creq 0 (TKey [0; 5])) (q_popo (rsa_req 0 5)) (alt_info [0; 2; 0; 5])] [] false) o0
    = Ok [(0, IPlain (tmpl (TKey [0; 5])))] /\
  process_all E0 (msg_of "ir" [q_with (creq 0 (TKey [0; 5])) (q_popo (rsa_req 0 5)) (alt_info [0; 2; 0; 6])] [] false) o0 = Err EBadCertTemplate /\
  process_all E0 (msg_of "ir" [q_with (creq 0 (TKey [0; 5])) (q_popo (rsa_req 0 5)) (alt_info [1; 2; 0; 5])] [] false) o0 = Err EBadRequest /\
  process_all E0 (msg_of "ir" [q_with (creq 0 TAbsent) None (alt_info [0; 2; 0; 6])] [] false) o0 = Err EBadPOP /\
  alternative E0 (q_with (creq 0 TAbsent) None (alt_info [0; 0])) (creq 0 TAbsent).
Proof. do 4 (split; [vm_compute; reflexivity|]). exact alt_kem. Qed.
Print Assumptions C103_ex.

(** ** C104: messages with several requests *)

Theorem C104_ids : forall m, b_name m <> "p10cr" ->
  (validate_ids m = Ok tt <-> b_reqs m <> [] /\ Permutation (ids m) (first_numbers (length (b_reqs m)))).
Proof. exact ids_exact. Qed.
Print Assumptions C104_ids.
(** One certificate for each request, in order, with its identifier. *)
Theorem C104_all : forall E m o r, process_all E m o = Ok r <->
  List.map fst r = ids m /\ (forall j x, nth_error r j = Some x -> process_one E m j o = Ok (snd x)).
Proof. exact all_exact. Qed.
Print Assumptions C104_all.
(** All or nothing: the first request that fails decides. *)
Theorem C104_fails : forall E m o e, process_all E m o = Err e <->
  exists j, (j < length (b_reqs m))%nat /\ process_one E m j o = Err e /\ (forall j', (j' < j)%nat -> is_ok (process_one E m j' o) = true).
Proof. exact all_fails. Qed.
Print Assumptions C104_fails.
(** The lightweight profile allows one request, with the identifier 0. *)
Theorem C104_profile : forall m, In (b_name m) own_bodies -> (enforce_lwcmp m = Ok tt <-> exists q, b_reqs m = [q] /\ r_id (q_req q) = 0).
Proof. exact lwcmp_single. Qed.
Print Assumptions C104_profile.
(** With the profile switched on, the server answers an ir or a key update only if it has one request, with identifier 0. *)
Theorem C104_server : forall E m o kem same r, o_lw o = true -> b_name m = "ir" \/ b_name m = "kur" -> serve E m o kem same = Ok r ->
  exists q c, b_reqs m = [q] /\ r_id (q_req q) = 0 /\ r = [(0, c)].
Proof. exact server_single. Qed.
Print Assumptions C104_server.
(** A cr with several requests is answered nevertheless. *)
Theorem C104_cr_refuted : exists E m o r, keys_known E /\ o_lw o = true /\ b_name m = "cr" /\ length (b_reqs m) = 2%nat /\ serve E m o false false = Ok r.
Proof.
  exists E0, (msg_of "cr" [rsa_req 0 5; rsa_req 1 5] [] false), o0. eexists. split; [exact E0_keys|]. do 3 (split; [reflexivity|]). vm_compute; reflexivity.
Qed.
Print Assumptions C104_cr_refuted.
Example C104_server_ex : serve E0 (msg_of "ir" [rsa_req 0 5] [] false) o0 false false = Ok [(0, IPlain (tmpl (TKey [0; 5])))] /\
  serve E0 (msg_of "ir" [rsa_req 0 5; rsa_req 1 5] [] false) o0 false false = Err EBadRequest.
Proof. split; vm_compute; reflexivity. Qed.
Print Assumptions C104_server_ex.
(** Requests that are answered alone are refused together: one for a generated key and one for an own key. *)
Theorem C104_mixed_refuted : exists E o q1 q2 q3 c1 c2 c3, keys_known E /\
  process_all E (msg_of "cr" [q1] [] false) o = Ok [c1] /\ process_all E (msg_of "cr" [q2] [] false) o = Ok [c2] /\
  process_all E (msg_of "cr" [q3] [] false) o = Ok [c3] /\
  validate_ids (msg_of "cr" [q1; q2] [] false) = Ok tt /\ process_all E (msg_of "cr" [q1; q2] [] false) o = Err EBadPOP /\
  validate_ids (msg_of "cr" [q2; q3] [] false) = Err EBadRequest /\ process_all E (msg_of "cr" [q2; q3] [] false) o = Err EBadCertTemplate.
Proof.
  exists E0, o0, (q_with (creq 0 TAbsent) None None), (rsa_req 1 5), (q_with (creq 1 TAbsent) None None).
  eexists; eexists; eexists. split; [exact E0_keys|]. do 6 (split; [vm_compute; reflexivity|]). vm_compute; reflexivity.
Qed.
Print Assumptions C104_mixed_refuted.
Example C104_ex :
  validate_ids (msg_of "ir" [rsa_req 1 5; rsa_req 0 6] [] false) = Ok tt /\
  validate_ids (msg_of "ir" [rsa_req 1 5; rsa_req 1 6] [] false) = Err EBadRequest /\
  validate_ids (msg_of "ir" [rsa_req 0 5; rsa_req 2 6] [] false) = Err EBadRequest /\
  validate_ids (msg_of "ir" [rsa_req 1 5] [] false) = Err EBadRequest /\
  process_all E0 (msg_of "ir" [rsa_req 1 5; rsa_req 0 6] [] false) o0 =
    Ok [(1, IPlain (tmpl (TKey [0; 5]))); (0, IPlain (tmpl (TKey [0; 6])))] /\
  process_all E0 (msg_of "ir" [rsa_req 1 5; rsa_req 0 99; q_with (creq 2 (TKey [6; 1])) (Some PoRa) None] [] false) o0 = Err EBadCertTemplate.
Proof. do 5 (split; [vm_compute; reflexivity|]). vm_compute; reflexivity. Qed.
Print Assumptions C104_ex.

(** ** C105: requests an RA vouches for *)

Theorem C105_exact : forall E m o, verify_ra_verified E m o = Ok tt <-> (o_ra o = true -> from_ra E m o).
Proof. exact ra_exact. Qed.
Print Assumptions C105_exact.
Theorem C105_issued : forall E m i o q c, keys_known E -> In (b_name m) own_bodies -> nth_error (b_reqs m) i = Some q ->
  q_popo q = Some PoRa -> o_ra o = true -> process_one E m i o = Ok c -> from_ra E m o.
Proof.
  intros E m i o q c W B N P O H. destruct (first_exists _ _ _ N) as (w & N0).
  pose proof (sound_first _ _ _ _ _ _ _ W B N N0 H) as T.
  destruct T as [(C & _)|t Q RA K|t k a v Q A Sg K|(k & own & ss & a & v & data & A & Q & _)|(k & k' & e & A & [Q|Q] & _)|k Q A K WR|k n Q A K WR]; try congruence.
  exact (RA O).
Qed.
Print Assumptions C105_issued.
Definition ra_req : reqmsg := q_with (creq 0 (TKey [0; 5])) (Some PoRa) None.
(** Who protected the message does not matter: anyone with a MAC secret can send the certificate of the RA along. *)
Theorem C105_sender_refuted : exists E m o q c, keys_known E /\ b_mac m = true /\ o_ra o = true /\ o_chain o = true /\ b_reqs m = [q] /\
  q_popo q = Some PoRa /\ serve E m o false false = Ok [(0, c)].
Proof.
  exists E0, (msg_of "ir" [ra_req] [ra_cert] true), o0, ra_req. eexists. split; [exact E0_keys|].
  do 5 (split; [reflexivity|]). vm_compute. reflexivity.
Qed.
Print Assumptions C105_sender_refuted.
Definition mac_as (b : bool) (m : request) : request :=
  {| b_name := b_name m; b_reqs := b_reqs m; b_csr := b_csr m; b_entries := b_entries m; b_certs := b_certs m; b_mac := b |}.
Lemma from_mac : forall E m o b l i, process_from E (mac_as b m) o i l = process_from E m o i l.
Proof.
  intros E m o b. induction l as [|q l IH]; intro i; [reflexivity|]. cbn [process_from].
  change (process_one E (mac_as b m) i o) with (process_one E m i o). destruct (process_one E m i o); cbn [bind]; [|reflexivity]. now rewrite IH.
Qed.
Theorem C105_mac_refuted : forall E m o kem same b, serve E (mac_as b m) o kem same = serve E m o kem same.
Proof.
  intros E m o kem same b. unfold serve, build_kup, build_ip, process_all. rewrite !from_mac. reflexivity.
Qed.
Print Assumptions C105_mac_refuted.
(** A key update protected with a KEM is not checked for an RA at all. *)
Theorem C105_kem_refuted : exists E m o q c, keys_known E /\ o_ra o = true /\ b_reqs m = [q] /\ q_popo q = Some PoRa /\ ~ from_ra E m o /\
  serve E m o true false = Ok [(0, c)].
Proof.
  exists E0, (msg_of "kur" [ra_req] [mkc 3] false), o0, ra_req. eexists. split; [exact E0_keys|]. do 3 (split; [reflexivity|]).
  split; [|vm_compute; reflexivity]. intros (c & rest & H & (x & I & D) & _). cbn in H. inversion H; subst c.
  cbn in I. destruct I as [<-|[]]. discriminate D.
Qed.
Print Assumptions C105_kem_refuted.
Example C105_ex :
  process_all E0 (msg_of "ir" [ra_req] [ra_cert; mkc 2] false) o0 = Ok [(0, IPlain (tmpl (TKey [0; 5])))] /\
  process_all E0 (msg_of "ir" [ra_req] [mkc 2; ra_cert] false) o0 = Err ENotAuthorized /\
  process_all E0 (msg_of "ir" [ra_req] [] false) o0 = Err ENotAuthorized /\
  from_ra E0 (msg_of "ir" [ra_req] [ra_cert; mkc 2] false) o0.
Proof.
  do 3 (split; [vm_compute; reflexivity|]). apply (proj1 (C105_exact E0 _ o0)); vm_compute; reflexivity.
Qed.
Print Assumptions C105_ex.

(** ** C106: key updates *)

Theorem C106_exact : forall E m must same r, keys_known E ->
  (build_kup E m must same = Ok r <->
   b_name m = "kur" /\ exists q, b_reqs m = [q] /\ r_id (q_req q) = 0 /\ (same = true \/ fresh_key E m q) /\
     kur_controls E m q None must /\
     ((signed E q /\ buildable E (r_tmpl (q_req q)) /\ r = [(0, IPlain (r_tmpl (q_req q)))]) \/
      (central E q /\ e_central E (r_tmpl (q_req q)) = Ok tt /\ r = [(0, ICentral (r_tmpl (q_req q)))]))).
Proof. exact kup_exact. Qed.
Print Assumptions C106_exact.
(** The controls name the certificate that is replaced. *)
Theorem C106_controls : forall E m q ca must, b_name m = "kur" -> nth_error (b_reqs m) 0 = Some q ->
  (validate_kur_controls E m ca must = Ok tt <-> kur_controls E m q ca must).
Proof. intros E m q ca must B. apply controls_exact. unfold bodied. rewrite B. cbn; auto. Qed.
Print Assumptions C106_controls.
Definition old_ctrl (b : bytes) : option (list control) := Some [{| ct_type := "id_regCtrl_oldCertID"; ct_val := b |}].
Definition kur_req (n : Z) (c : option (list control)) : reqmsg :=
  let r := {| r_id := 0; r_tmpl := tmpl (TKey [0; n]); r_controls := c |} in
  q_with r (Some (PoSig sig256 (sign_req (SPkcs1 "sha256") n r))) None.
(** The issuer in the control is compared with the second certificate the sender puts into the message: with the same
    old certificate, either of two issuers passes. *)
Theorem C106_issuer_refuted : exists E m1 m2 q1 q2 old ca1 ca2 r1 r2, keys_known E /\ b_certs m1 = [old; ca1] /\ b_certs m2 = [old; ca2] /\
  b_reqs m1 = [q1] /\ b_reqs m2 = [q2] /\ r_controls (q_req q1) <> r_controls (q_req q2) /\
  c_name ca1 <> c_name ca2 /\ build_kup E m1 true false = Ok r1 /\ build_kup E m2 true false = Ok r2.
Proof.
  exists E0, (msg_of "kur" [kur_req 5 (old_ctrl [60; 3])] [mkc 3; mkc 60] false), (msg_of "kur" [kur_req 5 (old_ctrl [61; 3])] [mkc 3; mkc 61] false),
    (kur_req 5 (old_ctrl [60; 3])), (kur_req 5 (old_ctrl [61; 3])), (mkc 3), (mkc 60), (mkc 61). eexists; eexists.
  split; [exact E0_keys|]. do 4 (split; [reflexivity|]). split; [discriminate|]. split; [discriminate|].
  split; vm_compute; reflexivity.
Qed.
Print Assumptions C106_issuer_refuted.
(** The rules for the keys of templates do not apply: a short RSA key that is refused in an initial request passes. *)
Theorem C106_template_refuted : exists E m m' r o, keys_known E /\ b_name m = "kur" /\ b_name m' = "ir" /\ b_reqs m = b_reqs m' /\
  serve E m o false false = Ok r /\ serve E m' o false false = Err EBadCertTemplate.
Proof.
  exists E0, (msg_of "kur" [kur_req 99 None] [mkc 3] false), (msg_of "ir" [kur_req 99 None] [mkc 3] false). eexists. exists o0.
  split; [exact E0_keys|]. do 3 (split; [reflexivity|]). split; vm_compute; reflexivity.
Qed.
Print Assumptions C106_template_refuted.
(** Key updates of keys that cannot sign are refused. *)
Theorem C106_kem_refuted : forall E m must same q p, b_name m = "kur" -> b_reqs m = [q] -> r_id (q_req q) = 0 ->
  q_popo q = Some p -> (forall a v, p <> PoSig a v) -> build_kup E m must same = Err EBadPOP.
Proof.
  intros E m must same q p B Q ID P NS. unfold build_kup. rewrite B. change (String.eqb "kur" "kur") with true. cbn [guard bind].
  rewrite (proj2 (lwcmp_single m ltac:(rewrite B; cbn; auto))); [|eauto]. cbn [bind]. unfold validate_popo_kur.
  rewrite (proj2 (get_req_ok m 0 q ltac:(apply own_bodied; rewrite B; cbn; auto))) by (rewrite Q; reflexivity). cbn [bind]. rewrite P.
  destruct p; try reflexivity. now destruct (NS a v).
Qed.
Print Assumptions C106_kem_refuted.
Example C106_ex :
  build_kup E0 (msg_of "kur" [kur_req 5 (old_ctrl [60; 3])] [mkc 3; mkc 60] false) true false
    = Ok [(0, IPlain (tmpl (TKey [0; 5])))] /\
  build_kup E0 (msg_of "kur" [kur_req 5 (old_ctrl [60; 4])] [mkc 3; mkc 60] false) true false = Err EBadCertId /\
  build_kup E0 (msg_of "kur" [kur_req 3 (old_ctrl [60; 3])] [mkc 3; mkc 60] false) true false = Err EBadCertTemplate /\
  build_kup E0 (msg_of "kur" [kur_req 3 (old_ctrl [60; 3])] [mkc 3; mkc 60] false) true true = Ok [(0, IPlain (tmpl (TKey [0; 3])))] /\
  build_kup E0 (msg_of "kur" [kur_req 5 None] [mkc 3; mkc 60] false) true false = Err EBadRequest /\
  build_kup E0 (msg_of "kur" [q_with (creq 0 TAbsent) None None] [mkc 3] false) false false = Ok [(0, ICentral (tmpl TAbsent))].
Proof. do 5 (split; [vm_compute; reflexivity|]). vm_compute; reflexivity. Qed.
Print Assumptions C106_ex.

(** ** C107: cross-certification *)

Theorem C107_exact : forall E m r, keys_known E ->
  (build_ccp E m = Ok r <->
   b_name m = "ccr" /\ exists q t, b_reqs m = [q] /\ r_id (q_req q) = 0 /\ signed E q /\ complete (r_tmpl (q_req q)) /\
     cross_template (r_tmpl (q_req q)) t /\ buildable E t /\ r = [(0, IPlain t)]).
Proof. exact ccp_exact. Qed.
Print Assumptions C107_exact.
Theorem C107_usage : forall t t', cross_template t t' -> t_key t' = t_key t /\ t_null t' = t_null t /\ t_san t' = t_san t /\ t_rest t' = t_rest t /\
  (exists l, t_ku t' = Some (Some l) /\ In "keyCertSign" l) /\ (exists b, t_bc t' = Some b /\ (t_bc t = None -> b = true) /\ (forall x, t_bc t = Some x -> b = x)).
Proof. exact cross_usage. Qed.
Print Assumptions C107_usage.
Definition cc_req (n : Z) (t : template) : reqmsg :=
  let r := {| r_id := 0; r_tmpl := t; r_controls := None |} in
  q_with r (Some (PoSig sig256 (sign_req (SPkcs1 "sha256") n r))) None.
(** A cross-certificate need not be one of a CA. *)
Theorem C107_ca_refuted : exists E m t, keys_known E /\ build_ccp E m = Ok [(0, IPlain t)] /\ t_bc t = Some false.
Proof.
  exists E0, (msg_of "ccr" [cc_req 5 (set_bc (tmpl (TKey [0; 5])) false)] [] false). eexists. split; [exact E0_keys|].
  split; vm_compute; reflexivity.
Qed.
Print Assumptions C107_ca_refuted.
Example C107_ex :
  build_ccp E0 (msg_of "ccr" [cc_req 5 (tmpl (TKey [0; 5]))] [] false)
    = Ok [(0, IPlain (set_bc (set_ku (tmpl (TKey [0; 5])) ["digitalSignature"; "keyCertSign"]) true))] /\
  build_ccp E0 (msg_of "ccr" [cc_req 5 (set_ku (tmpl (TKey [0; 5])) ["cRLSign"])] [] false) = Err EBadCertTemplate /\
  build_ccp E0 (msg_of "ccr" [cc_req 5 (set_ku (tmpl (TKey [0; 5])) ["keyCertSign"; "cRLSign"])] [] false)
    = Ok [(0, IPlain (set_bc (set_ku (tmpl (TKey [0; 5])) ["keyCertSign"; "cRLSign"]) true))] /\
  build_ccp E0 (msg_of "ccr" [bad_req 0 5] [] false) = Err EBadPOP.
Proof. do 3 (split; [vm_compute; reflexivity|]). vm_compute; reflexivity. Qed.
Print Assumptions C107_ex.

(** ** C108: PKCS #10 requests *)

Theorem C108_exact : forall E m r, keys_known E ->
  (build_p10 E m = Ok r <->
   b_name m = "p10cr" /\ exists s, b_csr m = Some s /\ csr_signed E s /\ named (s_tmpl s) /\ buildable E (s_tmpl s) /\
     r = [(-1, IPlain (s_tmpl s))]).
Proof. exact p10_exact. Qed.
Print Assumptions C108_exact.
Definition csr0 (n : Z) (sig : bytes) : csr :=
  {| s_version := 0; s_tmpl := tmpl (TKey [0; n]); s_alg := sig256; s_sig := sig; s_der := [7; n] |}.
Definition p10_msg (s : csr) : request := {| b_name := "p10cr"; b_reqs := []; b_csr := Some s; b_entries := 0%nat; b_certs := []; b_mac := false |}.
(** The rules for the keys of templates do not apply. *)
Theorem C108_template_refuted : exists E m r s, keys_known E /\ b_csr m = Some s /\ build_p10 E m = Ok r /\
  validate_template E (s_tmpl s) None true = Err EBadCertTemplate.
Proof.
  exists E0, (p10_msg (csr0 99 (toy_sign (SPkcs1 "sha256") {| k_kind := KRsa; k_id := 99 |} [7; 99]))). eexists; eexists.
  split; [exact E0_keys|]. split; [reflexivity|]. split; vm_compute; reflexivity.
Qed.
Print Assumptions C108_template_refuted.
Example C108_ex :
  serve E0 (p10_msg (csr0 5 (toy_sign (SPkcs1 "sha256") {| k_kind := KRsa; k_id := 5 |} [7; 5]))) o0 false false
    = Ok [(-1, IPlain (tmpl (TKey [0; 5])))] /\
  serve E0 (p10_msg (csr0 5 (toy_sign (SPkcs1 "sha256") {| k_kind := KRsa; k_id := 6 |} [7; 5]))) o0 false false = Err EBadPOP.
Proof. split; vm_compute; reflexivity. Qed.
Print Assumptions C108_ex.

(** ** C109: keys, algorithms and delivery *)

Theorem C109_template : forall E t sig lw, keys_known E -> (validate_template E t sig lw = Ok tt <->
  named t /\ good_key E lw t /\
  match sig with None => True | Some a => exists d k, t_key t = TKey d /\ e_load E d = Ok (Pub k) /\ fits (a_oid a) (k_kind k) end).
Proof. exact template_exact. Qed.
Print Assumptions C109_template.
Theorem C109_algorithm : forall o k, wf_kind k -> (consistent o k = Ok tt <-> fits o k).
Proof. exact consistent_exact. Qed.
Print Assumptions C109_algorithm.
(** A certificate is encrypted for the key it is issued for. *)
Theorem C109_encrypted : forall E m i o q t k, keys_known E -> In (b_name m) own_bodies -> nth_error (b_reqs m) i = Some q ->
  process_one E m i o = Ok (IEnc t k) -> t = r_tmpl (q_req q) /\ exists d, t_key t = TKey d /\ e_load E d = Ok (Pub k).
Proof.
  intros E m i o q t k W B N H. destruct (first_exists _ _ _ N) as (w & N0).
  pose proof (sound_first _ _ _ _ _ _ _ W B N N0 H) as T. inversion T; subst; (split; [reflexivity|]); assumption.
Qed.
Print Assumptions C109_encrypted.
(** A certificate in clear is one whose key was proved, disclosed or vouched for. *)
Theorem C109_plain : forall E m o q t, keys_known E -> In (b_name m) own_bodies -> nth_error (b_reqs m) 0 = Some q ->
  process_one E m 0 o = Ok (IPlain t) -> signed E q \/ maced E q \/ disclosed E m q \/ (q_popo q = Some PoRa /\ (o_ra o = true -> from_ra E m o)).
Proof.
  intros E m o q t W B N H. pose proof (sound_first _ _ _ _ _ _ _ W B N N H) as T. inversion T; subst; auto 10.
Qed.
Print Assumptions C109_plain.
(** Signature proofs, exactly. *)
Theorem C109_signature : forall E m o q a v c, keys_known E -> In (b_name m) own_bodies -> nth_error (b_reqs m) 0 = Some q ->
  q_popo q = Some (PoSig a v) ->
  (process_one E m 0 o = Ok c <->
   exists alt k, registered E q alt /\ named (r_tmpl (q_req q)) /\ good_key E (o_lw o) (r_tmpl (q_req q)) /\
     e_controls E 0 (q_req q) = Ok tt /\ named (in_force q alt) /\ good_key E true (in_force q alt) /\
     asks_for E q k /\ fits (a_oid a) (k_kind k) /\ signed E q /\ buildable E (in_force q alt) /\ c = IPlain (in_force q alt)).
Proof. exact sig_served. Qed.
Print Assumptions C109_signature.
(** The algorithm of a valid signature fits the key, unless it is RSASSA-PSS. *)
Theorem C109_fits : forall L a k data v, sig_valid L a k data v -> ~ In (a_oid a) pss_oids -> gives (k_kind k) (a_oid a) -> fits (a_oid a) (k_kind k).
Proof. exact valid_fits. Qed.
Print Assumptions C109_fits.
(** Requests signed with RSASSA-PSS are refused, valid or not. *)
Theorem C109_pss_refuted : forall E m i o q a v, keys_known E -> nth_error (b_reqs m) i = Some q -> In (b_name m) own_bodies ->
  q_popo q = Some (PoSig a v) -> In (a_oid a) pss_oids -> is_ok (process_one E m i o) = false.
Proof. exact pss_refused. Qed.
Print Assumptions C109_pss_refuted.
Definition pss_alg : algid := Alg "id_RSASSA_PSS_SHAKE128" PAbsent.
Definition pss_req : reqmsg := q_with (creq 0 (TKey [0; 5])) (Some (PoSig pss_alg (sign_req (SPssShake "shake128" 32) 5 (creq 0 (TKey [0; 5]))))) None.
Example C109_pss_ex :
  verify_popo E0 (msg_of "ir" [pss_req] [] false) 0 o0 = Ok tt /\ process_one E0 (msg_of "ir" [pss_req] [] false) 0 o0 = Err EBadPOP.
Proof. split; vm_compute; reflexivity. Qed.
Print Assumptions C109_pss_ex.
(** RSA keys cannot be certified by encrypting the certificate for them. *)
Theorem C109_rsa_refuted : forall E m o q p k, keys_known E -> In (b_name m) own_bodies -> nth_error (b_reqs m) 0 = Some q -> asks_for E q k ->
  k_kind k = KRsa -> q_popo q = Some (PoEnc p) -> verify_popo E m 0 o = Err EValueError.
Proof.
  intros E m o q p k W B N A K P. unfold verify_popo. rewrite (own_in _ B). cbn [negb].
  rewrite (proj2 (get_req_ok _ _ _ (own_bodied _ B)) N). cbn [bind].
  rewrite (proj2 (kga_true _ _ _ _ false (own_bodied _ B) N)); [|left; split; congruence]. cbn [bind]. rewrite P.
  rewrite (proj2 (req_key_asks _ _ _) A). cbn [bind]. destruct k as [kk n]. cbn [k_kind] in K. subst kk. reflexivity.
Qed.
Print Assumptions C109_rsa_refuted.
(** challengeResp is answered with an encrypted certificate in the key agreement case. *)
Theorem C109_challenge_refuted : exists E m o q c, keys_known E /\ nth_error (b_reqs m) 0 = Some q /\ q_popo q = Some (PoAgree (PpNext 1)) /\
  process_one E m 0 o = Ok c /\ exists t k, c = IEnc t k.
Proof.
  exists E0, (msg_of "ir" [x_req 0 5 (PpNext 1)] [] false), o0, (x_req 0 5 (PpNext 1)). eexists. split; [exact E0_keys|].
  do 2 (split; [reflexivity|]). split; [vm_compute; reflexivity|]. eexists; eexists; reflexivity.
Qed.
Print Assumptions C109_challenge_refuted.
Definition x_mac (v : bytes) : privpop := PpMac (Alg "id_hmacWithSHA256" PAbsent) v.
Example C109_ex :
  process_one E0 (msg_of "ir" [kem_req 0 5 0] [] false) 0 o0 = Ok (IEnc (tmpl (TKey [3; 5])) {| k_kind := KKem "ml-kem"; k_id := 5 |}) /\
  process_one E0 (msg_of "ir" [kem_req 0 5 1] [] false) 0 o0 = Err EValueError /\
  process_one E0 (msg_of "ir" [x_req 0 5 (x_mac (l_hmac toy "sha256" [35; 17; 23] (enc_req (creq 0 (TKey [4; 5])))))] [] false) 0 o0
    = Ok (IPlain (tmpl (TKey [4; 5]))) /\
  process_one E0 (msg_of "ir" [x_req 0 5 (x_mac [1; 2])] [] false) 0 o0 = Err EBadPOP /\
  process_one E0 (msg_of "ir" [x_req 0 5 (PpKey [5; 1])] [] false) 0 o0 = Ok (IPlain (tmpl (TKey [4; 5]))) /\
  process_one E0 (msg_of "ir" [x_req 0 5 (PpKey [6; 1])] [] false) 0 o0 = Err EBadPOP /\
  process_one E0 (msg_of "ir" [x_req 0 5 (PpKey [5; 0])] [] false) 0 o0 = Err EBadCertTemplate /\
  process_one E0 (msg_of "ir" [q_with (creq 0 (TKey [5; 5])) (Some PoRa) None] [ra_cert] false) 0 o0 = Err EBadAlg.
Proof. do 7 (split; [vm_compute; reflexivity|]). vm_compute; reflexivity. Qed.
Print Assumptions C109_ex.
