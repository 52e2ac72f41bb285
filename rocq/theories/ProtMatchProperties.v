(** C95 to C97: protection that stays the same through an exchange; reading and changing protection. *)
From Coq Require Import String Ascii Lia.
From Verif Require Import Prelude PreludeFacts PyStr CompLoadModel HdrModel ProtTab ProtModel ProtSpec ProtMacMsg ProtSig ProtKind ProtToy.
From Verif Require Import ProtProperties ProtMatchModel ProtMatchSpec ProtMatchProofs ProtMatchSig ProtPw.
Open Scope string_scope.
Open Scope Z_scope.
Local Notation length := List.length.

(** ** C88 *)
(** The bytes of a password: hexadecimal after "0x", otherwise the text itself. *)
Theorem C88_password : forall v b, str_to_bytes v = Ok b <-> pw_bytes v b.
Proof. exact password_exact. Qed.
Print Assumptions C88_password.
Example C88_password_ex : pw_bytes (SvStr "0x0a fF") [10; 255] /\ pw_bytes (SvStr "0X0a") [48; 88; 48; 97] /\
  str_to_bytes (SvStr "0x0") = Err EValueError /\ pw_bytes (SvBytes [1; 2]) [1; 2].
Proof. split; [apply password_exact; vm_compute; reflexivity|]. split; [now apply (PB_text "0X0a")|]. split; [reflexivity|constructor]. Qed.
Print Assumptions C88_password_ex.

(** ** C95 *)
(** A strict comparison passes exactly when request and response name one MAC algorithm (with enforce_lwcmp one of the
    Lightweight CMP profile) and its parameters agree; with same_salt there is no confirmation. *)
Theorem C95_exact : forall L req resp conf ss an lw,
  mac_protection_algorithms_must_match L req resp conf ss an true lw = Ok tt <->
  exists a1 a2, alg_is req a1 /\ alg_is resp a2 /\ In (a_oid a2) mac_oids /\ (lw = true -> In (a_oid a2) lw_macs) /\
    a_oid a1 = a_oid a2 /\ params_match L ss an a1 a2 /\ bytes_match L ss an a1 a2 /\ (ss = true -> conf = None).
Proof. exact match_exact. Qed.
Print Assumptions C95_exact.
(** A request and a received response protected with the same settings match exactly when their salts differ, or with
    same_salt are equal. *)
Theorem C95_pair : forall L ra ra' rb rb' m1 m2 p1 p2 o1 o2 q r pa s1 s2 conf ss lw, codec_ok L -> enc_ok L ->
  protect_pkimessage L ra ra' m1 p1 o1 = Ok q -> protect_pkimessage L rb rb' m2 p2 o2 = Ok r ->
  protection_get p1 = Ok pa -> protection_get p2 = Ok pa -> pa = PA_PBMAC1 \/ pa = PA_PBM ->
  o_iter o1 = o_iter o2 -> o_len o1 = o_len o2 -> o_hash o1 = o_hash o2 -> used_salt o1 ra s1 -> used_salt o2 rb s2 ->
  (mac_protection_algorithms_must_match L q (transport L r) conf ss true true lw = Ok tt <->
   salt_rule ss s1 s2 /\ (ss = true -> conf = None)).
Proof. exact match_pair. Qed.
Print Assumptions C95_pair.
Definition iter_args (i : Z) (hash : option string) : popts :=
  {| o_password := Some (SvStr "secret"); o_key := None; o_cert := None; o_exclude := false; o_chain_file := None;
     o_certs_dir := false; o_ss := None; o_bad := false; o_salt := None; o_iter := Some i; o_len := None; o_hash := hash;
     o_patch := true; o_mac := None; o_chain := None; o_peer := None; o_rand := false; o_certificate := None |}.
Lemma toy_enc : enc_ok toy.
Proof. intro a. exact (enc_wire a). Qed.
Definition passes (ss an strict lw : bool) (prot1 prot2 : string) (o1 o2 : popts) (r1 r2 : Z -> bytes) (conf : option msg) : result unit :=
  let! q := protect_pkimessage toy r1 r1 msg0 prot1 o1 in
  let! r := protect_pkimessage toy r2 r2 msg0 prot2 o2 in
  mac_protection_algorithms_must_match toy q (transport toy r) conf ss an strict lw.
Example C95_ex : codec_ok toy /\ enc_ok toy /\
  (forall p, In p ["pbmac1"; "password_based_mac"] ->
    passes false true true true p p (iter_args 3 None) (iter_args 3 None) toy_rnd other_rnd None = Ok tt /\
    passes false true true true p p (iter_args 3 None) (iter_args 3 None) toy_rnd toy_rnd None = Err EValueError /\
    passes true true true true p p (iter_args 3 None) (iter_args 3 None) toy_rnd toy_rnd None = Ok tt /\
    passes true true true true p p (iter_args 3 None) (iter_args 3 None) toy_rnd other_rnd None = Err EValueError /\
    passes false true true true p p (iter_args 3 None) (iter_args 4 None) toy_rnd other_rnd None = Err EValueError /\
    passes false true true true p p (iter_args 3 None) (iter_args 3 (Some "sha384")) toy_rnd other_rnd None = Err EValueError) /\
  passes false true true true "pbmac1" "password_based_mac" (iter_args 3 None) (iter_args 3 None) toy_rnd other_rnd None = Err EValueError.
Proof.
  split; [exact toy_codec|]. split; [exact toy_enc|]. split; [|vm_compute; reflexivity].
  intros p P. cbn [In] in P. destruct P as [<-|[<-|[]]]; repeat split; vm_compute; reflexivity.
Qed.
Print Assumptions C95_ex.
(** Not strict: all messages have one kind of protection. *)
Theorem C95_not_strict : forall L req resp conf ss an lw,
  mac_protection_algorithms_must_match L req resp conf ss an false lw = Ok tt <->
  exists a1 a2 t, alg_is req a1 /\ alg_is resp a2 /\ oid_kind (a_oid a1) t /\ oid_kind (a_oid a2) t /\
    (lw = true -> lw_allowed (a_oid a1) t /\ lw_allowed (a_oid a2) t) /\
    opt_msg (fun c => exists a3, alg_is c a3 /\ oid_kind (a_oid a3) t /\ (lw = true -> lw_allowed (a_oid a3) t)) conf.
Proof. exact not_strict_exact. Qed.
Print Assumptions C95_not_strict.
(** ... which need not be a MAC: two messages with signature algorithms pass. *)
Theorem C95_not_strict_mac_refuted : forall L req resp a ss an, alg_is req a -> alg_is resp a -> oid_kind (a_oid a) T_SIG ->
  mac_protection_algorithms_must_match L req resp None ss an false false = Ok tt.
Proof.
  intros L req resp a ss an A B K. apply not_strict_exact. exists a, a, T_SIG. repeat split; auto; discriminate.
Qed.
Print Assumptions C95_not_strict_mac_refuted.
Example C95_not_strict_ex : alg_is (with_alg (rsa_alg PNull) [1] [2]) (rsa_alg PNull) /\ oid_kind "sha256WithRSAEncryption" T_SIG /\
  passes false true false true "pbmac1" "password_based_mac" (iter_args 3 None) (iter_args 4 None) toy_rnd toy_rnd None = Ok tt.
Proof. split; [reflexivity|]. split; [apply OK_sig; vm_compute; tauto|vm_compute; reflexivity]. Qed.
Print Assumptions C95_not_strict_ex.
(** The confirmation is not looked at when the salts have to differ, and never passes when they have to be equal. *)
Theorem C95_conf_refuted : forall L req resp c an lw,
  mac_protection_algorithms_must_match L req resp (Some c) false an true lw =
    mac_protection_algorithms_must_match L req resp None false an true lw /\
  mac_protection_algorithms_must_match L req resp (Some c) true an true lw <> Ok tt.
Proof.
  intros L req resp c an lw. split; [apply conf_ignored|]. intro H. apply match_exact in H as (a1 & a2 & _ & _ & _ & _ & _ & _ & _ & C).
  discriminate (C eq_refl).
Qed.
Print Assumptions C95_conf_refuted.
Example C95_conf_ex :
  passes false true true true "pbmac1" "pbmac1" (iter_args 3 None) (iter_args 3 None) toy_rnd other_rnd
    (Some (with_alg (rsa_alg PNull) [1] [2])) = Ok tt /\
  (let! q := protect_pkimessage toy toy_rnd toy_rnd msg0 "pbmac1" (iter_args 3 None) in
   mac_protection_algorithms_must_match toy q (transport toy q) (Some (transport toy q)) true true true true) = Err EValueError.
Proof. split; vm_compute; reflexivity. Qed.
Print Assumptions C95_conf_ex.
(** Algorithms without parameters (HMAC, KMAC) never match, not even for one message; a request that was itself received
    never matches when it uses PasswordBasedMac. *)
Theorem C95_bare_refuted : forall L req resp conf ss an lw a, alg_is req a ->
  (a_params a = PAbsent \/ (a_oid a = "id_PasswordBasedMac" /\ exists d, a_params a = PRaw d)) ->
  mac_protection_algorithms_must_match L req resp conf ss an true lw <> Ok tt.
Proof.
  intros L req resp conf ss an lw a A B H. apply match_exact in H as (a1 & a2 & A1 & _ & _ & _ & _ & M & _).
  unfold alg_is in *. assert (a1 = a) by congruence. subst a1. destruct B as [B|(O & d & B)].
  - exact (proj1 (params_present _ _ _ _ _ M) B).
  - inversion M; subst; cbn [a_oid a_params] in *; congruence.
Qed.
Print Assumptions C95_bare_refuted.
Example C95_bare_ex :
  passes false true true false "hmac" "hmac" (iter_args 3 None) (iter_args 3 None) toy_rnd other_rnd None = Err EPyAsn1 /\
  (let! q := protect_pkimessage toy toy_rnd toy_rnd msg0 "password_based_mac" (iter_args 3 None) in
   mac_protection_algorithms_must_match toy (transport toy q) (transport toy q) None true true true true) = Err ETypeError /\
  mac_protection_algorithms_must_match toy msg0 msg0 None false true true true = Err EPyAsn1.
Proof. repeat split; vm_compute; reflexivity. Qed.
Print Assumptions C95_bare_ex.

(** ** C96 *)
(** The signatures of an exchange are consistent exactly when all messages name the algorithm of the response without
    parameters, every one is signed by the first certificate of the response, and the certificates of every message that
    has any build a chain with the encoding of the response's. *)
Theorem C96_exact : forall L chain r c p, signature_protection_must_match L chain r c p = Ok tt <->
  exists ee rest a h, m_certs r = ee :: rest /\ (c <> None \/ p <> None) /\
    alg_is r a /\ a_params a = PAbsent /\ opt_msg (bare_alg (a_oid a)) c /\ opt_msg (bare_alg (a_oid a)) p /\
    sig_hash (a_oid a) h /\ signed_by L ee h r /\ opt_msg (signed_by L ee h) c /\ opt_msg (signed_by L ee h) p /\
    (exists ch, chain ee (m_certs r) = Ok ch) /\
    opt_msg (fun m => m_certs m <> [] -> one_chain chain ee (m_certs r) (m_certs m)) c /\
    opt_msg (fun m => m_certs m <> [] -> one_chain chain ee (m_certs r) (m_certs m)) p.
Proof. exact sig_match_exact. Qed.
Print Assumptions C96_exact.
Theorem C96_consistent : forall r c p, check_signature_alg_is_consistent r c p = Ok tt <->
  exists a, alg_is r a /\ a_params a = PAbsent /\ opt_msg (bare_alg (a_oid a)) c /\ opt_msg (bare_alg (a_oid a)) p.
Proof. exact consistent_exact. Qed.
Print Assumptions C96_consistent.
Definition ec1 : key := mk_key KEc 5.
Definition ec2 : key := mk_key KEc 6.
Definition ec_alg : algid := Alg "ecdsa_with_SHA256" PAbsent.
Definition by_ec (k : key) (b : bytes) (c : list cert) : msg := signed ec_alg (SEcdsa "sha256") k b c.
(** A chain builder: the certificate and the others that follow it. *)
Definition follow (ee : cert) (l : list cert) : result (list cert) := Ok (ee :: List.filter (fun c => negb (bytes_eqb (c_der c) (c_der ee))) l).
Example C96_ex :
  signature_protection_must_match toy follow (by_ec ec1 [1] [mk_cert ec1; mk_cert ec2]) (Some (by_ec ec1 [2] [mk_cert ec1; mk_cert ec2]))
    (Some (by_ec ec1 [3] [])) = Ok tt /\
  signature_protection_must_match toy follow (by_ec ec1 [1] [mk_cert ec1]) (Some (by_ec ec2 [2] [mk_cert ec2])) None = Err EValueError /\
  signature_protection_must_match toy follow (by_ec ec1 [1] [mk_cert ec1]) (Some (by_ec ec1 [2] [mk_cert ec1; mk_cert ec2])) None = Err EValueError /\
  signature_protection_must_match toy follow (by_ec ec1 [1] [mk_cert ec1])
    (Some (signed (Alg "ecdsa_with_SHA512" PAbsent) (SEcdsa "sha512") ec1 [2] [mk_cert ec1])) None = Err EValueError /\
  signature_protection_must_match toy follow (by_ec ec1 [1] [mk_cert ec1]) None None = Err EValueError.
Proof. repeat split; vm_compute; reflexivity. Qed.
Print Assumptions C96_ex.
(** Messages whose algorithm has parameters are never consistent: RSA signatures carry NULL, PSS signatures a structure. *)
Theorem C96_parameters_refuted : forall L chain r c p a, alg_is r a -> a_params a <> PAbsent ->
  signature_protection_must_match L chain r c p <> Ok tt.
Proof.
  intros L chain r c p a A N H. apply sig_match_exact in H as (ee & rest & b & h & _ & _ & B & P & _).
  unfold alg_is in *. assert (b = a) by congruence. subst. contradiction.
Qed.
Print Assumptions C96_parameters_refuted.
Example C96_parameters_ex :
  (let! m := protect_pkimessage toy toy_rnd toy_rnd msg0 "signature" (key_args (mk_key KRsa 3) (Some "sha256")) in
   let m' := {| m_header := m_header m; m_body := m_body m; m_prot := m_prot m; m_certs := [mk_cert (mk_key KRsa 3)] |} in
   let! _ := verify_pkimessage_protection toy toy_rnd m' (by_key (Some (mk_key KRsa 3)) false) in
   signature_protection_must_match toy follow m' (Some m') None) = Err EValueError.
Proof. vm_compute. reflexivity. Qed.
Print Assumptions C96_parameters_ex.
(** The certificates of another message may start with another certificate: only the chain of the response's certificate
    is built from them. *)
Theorem C96_first_cert_refuted : forall L chain r c ee other h a, m_certs r = [ee] -> alg_is r a -> a_params a = PAbsent ->
  sig_hash (a_oid a) h -> signed_by L ee h r -> bare_alg (a_oid a) c -> signed_by L ee h c -> m_certs c = [other] ->
  (forall l, chain ee l = Ok [ee]) -> signature_protection_must_match L chain r (Some c) None = Ok tt.
Proof.
  intros L chain r c ee other h a R A P SH S1 B S2 C CH. apply sig_match_exact. exists ee, [], a, h.
  do 2 (split; [solve [auto | left; discriminate]|]). do 8 (split; [solve [auto | exact I]|]). split; [eauto|]. split; [|exact I].
  cbn [opt_msg]. intros _. exists [ee], [ee]. auto.
Qed.
Print Assumptions C96_first_cert_refuted.
Example C96_first_cert_ex :
  signature_protection_must_match toy (fun ee _ => Ok [ee]) (by_ec ec1 [1] [mk_cert ec1]) (Some (by_ec ec1 [2] [mk_cert ec2])) None = Ok tt /\
  signed_by toy (mk_cert ec1) (Some "sha256") (by_ec ec1 [2] [mk_cert ec2]) /\ sig_hash "ecdsa_with_SHA256" (Some "sha256").
Proof.
  split; [vm_compute; reflexivity|]. split; [|constructor; vm_compute; tauto].
  exists (part0 ec_alg [2]), (toy_sign (SEcdsa "sha256") ec1 (part0 ec_alg [2])), ec1, (SEcdsa "sha256").
  split; [exists [2]; split; vm_compute; reflexivity|]. split; [reflexivity|]. split; [reflexivity|]. split; [constructor|vm_compute; reflexivity].
Qed.
Print Assumptions C96_first_cert_ex.
(** Pre-hashed and composite algorithms raise an IndexError although the messages verify. *)
Theorem C96_prehash_refuted : exists r c, m_certs r <> [] /\
  (let! _ := verify_pkimessage_protection toy toy_rnd r (by_key None false) in
   verify_pkimessage_protection toy toy_rnd c (by_key None false)) = Ok tt /\
  signature_protection_must_match toy follow r (Some c) None = Err EIndexError.
Proof.
  set (k := mk_key (KPq "ml-dsa-44") 9). set (a := Alg "pq:ml-dsa-44-sha512" PAbsent).
  exists (signed a (SPq (Some "sha512")) k [1] [mk_cert k]), (signed a (SPq (Some "sha512")) k [2] [mk_cert k]).
  split; [discriminate|]. split; vm_compute; reflexivity.
Qed.
Print Assumptions C96_prehash_refuted.

(** ** C97 *)
(** The salt read from the algorithm identifier is the one the protection was computed with, on the message and after it
    travels. *)
Theorem C97_salt : forall L ra ra' m prot o q pa s, codec_ok L ->
  protect_pkimessage L ra ra' m prot o = Ok q -> protection_get prot = Ok pa -> pa = PA_PBMAC1 \/ pa = PA_PBM ->
  used_salt o ra s ->
  exists a, alg_is q a /\ get_cmp_protection_salt L a = Ok s /\ get_cmp_protection_salt L (wire_alg L a) = Ok s.
Proof. exact salt_read. Qed.
Print Assumptions C97_salt.
Theorem C97_salt_exact : forall L a s, get_cmp_protection_salt L a = Ok s <->
  (a_oid a = "id_PasswordBasedMac" /\ exists f i m, (a_params a = PPbm s f i m \/ decodes (l_dec_pbm L) (a_params a) (s, f, i, m))) \/
  (a_oid a = "id_PBMAC1" /\
   ((exists ko i n f m, a_params a = PPbmac1 (Alg ko (PPbkdf2 (SaltSpec s) i n f)) m) \/
    (exists k m i n f, decodes (l_dec_pbmac1 L) (a_params a) (k, m) /\ decodes (l_dec_pbkdf2 L) (a_params k) (SaltSpec s, i, n, f)))).
Proof. exact salt_exact. Qed.
Print Assumptions C97_salt_exact.
Definition read_salt (prot : string) (o : popts) : result bytes :=
  let! q := protect_pkimessage toy toy_rnd toy_rnd msg0 prot o in
  match h_alg (m_header (transport toy q)) with Some a => get_cmp_protection_salt toy a | None => Err EPyAsn1 end.
Example C97_salt_ex : read_salt "pbmac1" (iter_args 3 None) = Ok (toy_rnd 16) /\
  read_salt "password_based_mac" (iter_args 3 None) = Ok (toy_rnd 16) /\ read_salt "hmac" (iter_args 3 None) = Err ENotImplemented /\
  toy_rnd 16 <> other_rnd 16.
Proof. do 3 (split; [vm_compute; reflexivity|]). vm_compute. discriminate. Qed.
Print Assumptions C97_salt_ex.
(** Modifying the protection changes its first byte only, or adds 32 random bytes; ... *)
Theorem C97_modify_exact : forall rnd m m', modify_pkimessage_protection rnd m = Ok m' <->
  m_header m' = m_header m /\ m_body m' = m_body m /\ m_certs m' = m_certs m /\
  match m_prot m with
  | None => m_prot m' = Some (rnd 32)
  | Some v => exists x r, v = x :: r /\ m_prot m' = Some ((if x =? 0 then 1 else 0) :: r)
  end.
Proof. exact modify_exact. Qed.
Print Assumptions C97_modify_exact.
(** ... and a MAC message that was accepted is then refused with BadMessageCheck. *)
Theorem C97_modified : forall L rnd r m a v w pw m', mac_message m a v -> with_password w pw ->
  v_lw w = false -> verify_pkimessage_protection L r m w = Ok tt -> modify_pkimessage_protection rnd m = Ok m' ->
  verify_pkimessage_protection L r m' w = Err EBadMessageCheck.
Proof. exact modified_mac. Qed.
Print Assumptions C97_modified.
Example C97_modified_ex : forall p, In p ["pbmac1"; "password_based_mac"; "hmac"] ->
  (let! m := protect_pkimessage toy toy_rnd toy_rnd msg0 p (iter_args 3 None) in
   let! _ := verify_pkimessage_protection toy toy_rnd m (by_password "secret" false) in
   let! m' := modify_pkimessage_protection toy_rnd m in
   verify_pkimessage_protection toy toy_rnd m' (by_password "secret" false)) = Err EBadMessageCheck.
Proof. intros p P. cbn [In] in P. destruct P as [<-|[<-|[<-|[]]]]; vm_compute; reflexivity. Qed.
Print Assumptions C97_modified_ex.
