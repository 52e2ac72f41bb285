(** C87 to C94: message protection. *)
From Coq Require Import String Ascii Lia.
From Verif Require Import Prelude PreludeFacts PyStr CompLoadModel HdrModel ProtTab ProtModel ProtSpec.
From Verif Require Import ProtMacMsg ProtDh ProtSig ProtKem ProtKind ProtToy.
Open Scope string_scope.
Open Scope Z_scope.
Local Notation length := List.length.

(** ** The messages and arguments of the examples *)
Definition hdr0 : header :=
  {| h_sender := Some [1; 2]; h_alg := None; h_kid := None; h_tx := Some [9; 9]; h_info := []; h_rest := [5] |}.
Definition msg0 : msg := {| m_header := hdr0; m_body := Some [3; 1; 4]; m_prot := None; m_certs := [] |}.
Definition mk_key (k : kkind) (i : Z) : key := {| k_kind := k; k_id := i |}.
Definition mk_cert (k : key) : cert :=
  {| c_der := [k_id k]; c_pub := Ok k; c_sig := "sha256WithRSAEncryption"; c_ski := None; c_subject := [2]; c_name := [1] |}.
Definition args (pw : option sval) (k : option key) (ss : option bytes) (p : option peer) (bad : bool) (hash mac : option string)
  : popts :=
  {| o_password := pw; o_key := k; o_cert := None; o_exclude := false; o_chain_file := None; o_certs_dir := false;
     o_ss := ss; o_bad := bad; o_salt := None; o_iter := Some 2; o_len := None; o_hash := hash; o_patch := true;
     o_mac := mac; o_chain := None; o_peer := p; o_rand := false; o_certificate := None |}.
Definition pw_args (pw : string) (bad : bool) (hash : option string) : popts :=
  args (Some (SvStr pw)) None None None bad hash None.
Definition key_args (k : key) (hash : option string) : popts := args None (Some k) None None false hash None.
Definition rand_args (k : key) : popts :=
  {| o_password := None; o_key := Some k; o_cert := None; o_exclude := false; o_chain_file := None; o_certs_dir := false;
     o_ss := None; o_bad := false; o_salt := None; o_iter := None; o_len := None; o_hash := None; o_patch := true;
     o_mac := None; o_chain := None; o_peer := None; o_rand := true; o_certificate := None |}.
Definition by_password (pw : string) (lw : bool) : vopts :=
  {| v_key := None; v_password := Some (SvStr pw); v_public := None; v_ss := None; v_lw := lw |}.
Definition by_key (k : option key) (lw : bool) : vopts :=
  {| v_key := None; v_password := None; v_public := k; v_ss := None; v_lw := lw |}.
Definition by_secret (ss : option bytes) (k : option key) : vopts :=
  {| v_key := k; v_password := None; v_public := None; v_ss := ss; v_lw := false |}.
Definition other_rnd (n : Z) : bytes := repeat 43 (Z.to_nat n).
Lemma other_urandom : is_urandom other_rnd.
Proof. intros n N. unfold other_rnd. rewrite repeat_length. lia. Qed.

(** ** C87 *)
(** A message protected with a password verifies with it, before and after it travels; one protected with bad_message_check
    never does. *)
Theorem C87_roundtrip : forall L r1 r2 r3 m prot o m' pa w, lib_ok L -> is_urandom r1 ->
  protect_pkimessage L r1 r2 m prot o = Ok m' -> protection_get prot = Ok pa -> is_mac_protection pa = true ->
  v_password w = o_password o -> v_lw w = false ->
  verify_pkimessage_protection L r3 m' w = (if o_bad o then Err EBadMessageCheck else Ok tt) /\
  verify_pkimessage_protection L r3 (transport L m') w = (if o_bad o then Err EBadMessageCheck else Ok tt).
Proof. exact mac_roundtrip. Qed.
Print Assumptions C87_roundtrip.
Example C87_roundtrip_ex :
  lib_ok toy /\ is_urandom toy_rnd /\
  (forall prot, In prot ["pbmac1"; "password_based_mac"; "hmac"; "kmac"; "aes128_gmac"; "PBMAC1"; "password-based-mac"] ->
   exists m' pa, protect_pkimessage toy toy_rnd toy_rnd msg0 prot (pw_args "secret" false None) = Ok m' /\
     protection_get prot = Ok pa /\ is_mac_protection pa = true /\
     verify_pkimessage_protection toy other_rnd (transport toy m') (by_password "secret" false) = Ok tt /\
     verify_pkimessage_protection toy other_rnd (transport toy m') (by_password "Secret" false) = Err EBadMessageCheck).
Proof.
  split; [exact toy_ok|]. split; [exact toy_urandom|]. intros prot P. cbn [In] in P.
  repeat (destruct P as [<-|P]; [eexists; eexists; repeat split; vm_compute; reflexivity|]). destruct P.
Qed.
Print Assumptions C87_roundtrip_ex.

(** With enforce_lwcmp it verifies exactly when the protection is PBMAC1 or PasswordBasedMac with a SHA-2 hash. *)
Theorem C87_roundtrip_lw : forall L r1 r2 r3 m prot o m' pa w, lib_ok L -> is_urandom r1 ->
  protect_pkimessage L r1 r2 m prot o = Ok m' -> protection_get prot = Ok pa -> is_mac_protection pa = true ->
  v_password w = o_password o -> v_lw w = true ->
  (verify_pkimessage_protection L r3 (transport L m') w = Ok tt <->
   o_bad o = false /\ (pa = PA_PBMAC1 \/ pa = PA_PBM) /\ In (hash_of pa o) sha2_names).
Proof. exact mac_roundtrip_lw. Qed.
Print Assumptions C87_roundtrip_lw.
Example C87_roundtrip_lw_ex : exists m1 m2 m3,
  protect_pkimessage toy toy_rnd toy_rnd msg0 "pbmac1" (pw_args "0x0102" false None) = Ok m1 /\
  protect_pkimessage toy toy_rnd toy_rnd msg0 "password_based_mac" (pw_args "0x0102" false (Some "sha1")) = Ok m2 /\
  protect_pkimessage toy toy_rnd toy_rnd msg0 "hmac" (pw_args "0x0102" false None) = Ok m3 /\
  verify_pkimessage_protection toy other_rnd (transport toy m1) (by_password "0x0102" true) = Ok tt /\
  verify_pkimessage_protection toy other_rnd (transport toy m2) (by_password "0x0102" true) <> Ok tt /\
  verify_pkimessage_protection toy other_rnd (transport toy m3) (by_password "0x0102" true) = Err EBadAlg.
Proof. do 3 eexists. repeat split; try (vm_compute; reflexivity). vm_compute. discriminate. Qed.
Print Assumptions C87_roundtrip_lw_ex.

(** ** C88 *)
(** The protection of a MAC message is accepted exactly when it is the MAC of header and body that the algorithm and the
    password determine; another value of the protection is refused with BadMessageCheck. *)
Theorem C88_decides : forall L rnd m o a v pw data,
  mac_message m a v -> with_password o pw -> part_of L m data -> v_lw o = false ->
  (verify_pkimessage_protection L rnd m o = Ok tt <-> mac_value L (rnd 16) a pw data v) /\
  (forall e, mac_value L (rnd 16) a pw data e -> e <> v ->
             verify_pkimessage_protection L rnd m o = Err EBadMessageCheck).
Proof. exact mac_decides. Qed.
Print Assumptions C88_decides.
Theorem C88_decides_lw : forall L rnd m o a v pw data,
  mac_message m a v -> with_password o pw -> part_of L m data -> v_lw o = true ->
  (verify_pkimessage_protection L rnd m o = Ok tt <-> mac_value L (rnd 16) a pw data v /\ lw_mac L a).
Proof. exact mac_decides_lw. Qed.
Print Assumptions C88_decides_lw.
(** Nothing is accepted without an algorithm and a protection value, nor a MAC without a password and a body. *)
Theorem C88_needs : forall L rnd m o, verify_pkimessage_protection L rnd m o = Ok tt ->
  exists a v, h_alg (m_header m) = Some a /\ m_prot m = Some v /\
    (In (a_oid a) mac_oids -> exists pw data, with_password o pw /\ part_of L m data).
Proof. exact mac_needs. Qed.
Print Assumptions C88_needs.
(** Two accepted messages with the same protection value have the same header and body, or two inputs have one MAC. *)
Theorem C88_tamper : forall L rnd m1 m2 o a1 a2 v pw, lib_ok L -> v_lw o = false ->
  mac_message m1 a1 v -> mac_message m2 a2 v -> with_password o pw ->
  wf_header L (m_header m1) = true -> wf_header L (m_header m2) = true ->
  verify_pkimessage_protection L rnd m1 o = Ok tt -> verify_pkimessage_protection L rnd m2 o = Ok tt ->
  (wire_header L (m_header m1) = wire_header L (m_header m2) /\ m_body m1 = m_body m2) \/
  (exists d1 d2, d1 <> d2 /\ part_of L m1 d1 /\ part_of L m2 d2 /\
     mac_value L (rnd 16) a1 pw d1 v /\ mac_value L (rnd 16) a2 pw d2 v).
Proof. exact mac_tamper. Qed.
Print Assumptions C88_tamper.
(** A PBMAC1 message: accepted, and refused when one byte of the body is another. *)
Definition pbmac1_alg : algid :=
  Alg "id_PBMAC1" (PPbmac1 (Alg "id_PBKDF2" (PPbkdf2 (SaltSpec [7; 7]) 2 (Some 4) (Alg "id_hmacWithSHA256" PAbsent)))
                           (Alg "id_hmacWithSHA256" PAbsent)).
Definition with_alg (a : algid) (v b : bytes) : msg :=
  {| m_header := set_alg hdr0 a; m_body := Some b; m_prot := Some v; m_certs := [] |}.
Definition part0 (a : algid) (b : bytes) : bytes := (enc_header (set_alg hdr0 a) ++ b)%list.
Definition pbmac1_val (pw b : bytes) : bytes :=
  l_hmac toy "sha256" (repeat (toy_sum (sb "sha256" ++ pw ++ [7; 7] ++ [2])%list) 4) (part0 pbmac1_alg b).
Example C88_ex :
  let v := pbmac1_val [97; 98] [3; 1; 4] in
  mac_message (with_alg pbmac1_alg v [3; 1; 4]) pbmac1_alg v /\ with_password (by_password "ab" false) [97; 98] /\
  part_of toy (with_alg pbmac1_alg v [3; 1; 4]) (part0 pbmac1_alg [3; 1; 4]) /\
  wf_header toy (m_header (with_alg pbmac1_alg v [3; 1; 4])) = true /\
  verify_pkimessage_protection toy toy_rnd (with_alg pbmac1_alg v [3; 1; 4]) (by_password "ab" false) = Ok tt /\
  verify_pkimessage_protection toy toy_rnd (with_alg pbmac1_alg v [3; 1; 4]) (by_password "ab" true) = Ok tt /\
  verify_pkimessage_protection toy toy_rnd (with_alg pbmac1_alg v [3; 1; 5]) (by_password "ab" false) = Err EBadMessageCheck.
Proof.
  cbv zeta. split; [|split; [|split; [|repeat split; vm_compute; reflexivity]]].
  - split; [reflexivity|]. split; [vm_compute; tauto|reflexivity].
  - exists (SvStr "ab"). split; reflexivity.
  - exists [3; 1; 4]. split; reflexivity.
Qed.
Print Assumptions C88_ex.
(** With an empty PasswordBasedMac salt the decision is not a function of message and password: the verifier uses a fresh
    random salt. *)
Definition pbm_alg : algid :=
  Alg "id_PasswordBasedMac" (PPbm [] (Alg "id_sha256" (PRaw [5; 0])) 2 (Alg "id_hmacWithSHA256" PAbsent)).
Theorem C88_empty_salt_refuted : exists L r1 r2 m w pw, lib_ok L /\ is_urandom r1 /\ is_urandom r2 /\ with_password w pw /\
  verify_pkimessage_protection L r1 m w = Ok tt /\ verify_pkimessage_protection L r2 m w = Err EBadMessageCheck.
Proof.
  exists toy, toy_rnd, other_rnd,
    (with_alg pbm_alg (l_hmac toy "sha256" (iterated (l_hash toy "sha256") 2 ([97; 98] ++ toy_rnd 16)%list) (part0 pbm_alg [3])) [3]),
    (by_password "ab" false), [97; 98].
  split; [exact toy_ok|]. split; [exact toy_urandom|]. split; [exact other_urandom|].
  split; [exists (SvStr "ab"); split; reflexivity|]. split; vm_compute; reflexivity.
Qed.
Print Assumptions C88_empty_salt_refuted.

(** ** C89 *)
(** A message protected with an agreed secret verifies at the peer: with the same secret, or with the two key pairs. *)
Theorem C89_roundtrip : forall L r1 r2 r3 m prot o m' w, lib_ok L ->
  protect_pkimessage L r1 r2 m prot o = Ok m' -> protection_get prot = Ok PA_DH ->
  (o_ss o = v_ss w /\ given (o_ss o) <> None \/
   given (o_ss o) = None /\ given (v_ss w) = None /\
   exists ka kb p, o_key o = Some ka /\ v_key w = Some kb /\ o_peer o = Some p /\ peer_key p = Ok kb /\ sender_key m' w ka) ->
  verify_pkimessage_protection L r3 (transport L m') w = (if o_bad o then Err EBadMessageCheck else Ok tt).
Proof. exact dh_roundtrip. Qed.
Print Assumptions C89_roundtrip.
Definition ka : key := mk_key KX25519 6.
Definition kb : key := mk_key KX25519 11.
Example C89_roundtrip_ex : forall mac, In mac [Some "hmac"; Some "hmac-sha256"; Some "aes256_gmac"; Some "kmac-shake128"; None] ->
  exists m', protect_pkimessage toy toy_rnd toy_rnd msg0 "dh" (args None (Some ka) None (Some (PeerKey kb)) false None mac) = Ok m' /\
  protection_get "dh" = Ok PA_DH /\ sender_key m' {| v_key := Some kb; v_password := None; v_public := Some ka; v_ss := None; v_lw := false |} ka /\
  verify_pkimessage_protection toy toy_rnd (transport toy m')
    {| v_key := Some kb; v_password := None; v_public := Some ka; v_ss := None; v_lw := false |} = Ok tt /\
  verify_pkimessage_protection toy toy_rnd (transport toy m')
    {| v_key := Some kb; v_password := None; v_public := Some kb; v_ss := None; v_lw := false |} = Err EBadMessageCheck.
Proof.
  intros mac M. cbn [In] in M.
  repeat (destruct M as [<-|M]; [eexists; repeat split; try (left; reflexivity); vm_compute; reflexivity|]). destruct M.
Qed.
Print Assumptions C89_roundtrip_ex.
(** What is accepted is exactly the DH-based MAC of header and body. *)
Theorem C89_decides : forall L rnd m w p v ss data,
  h_alg (m_header m) = Some (Alg "id_DHBasedMac" p) -> m_prot m = Some v -> part_of L m data ->
  v_ss w = Some ss -> ss <> [] ->
  (verify_pkimessage_protection L rnd m w = Ok tt <-> dh_value L (Alg "id_DHBasedMac" p) ss data v) /\
  (forall e, dh_value L (Alg "id_DHBasedMac" p) ss data e -> e <> v ->
             verify_pkimessage_protection L rnd m w = Err EBadMessageCheck).
Proof. exact dh_decides. Qed.
Print Assumptions C89_decides.
Definition dh_alg (owf mac : oid) : algid := Alg "id_DHBasedMac" (PDhbm (Alg owf (PRaw [5; 0])) (Alg mac PAbsent)).
Example C89_decides_ex :
  let a := dh_alg "id_sha1" "hMAC_SHA1" in
  let v := l_hmac toy "sha1" (l_hash toy "sha1" [1; 2; 3]) (part0 a [3; 1; 4]) in
  part_of toy (with_alg a v [3; 1; 4]) (part0 a [3; 1; 4]) /\
  verify_pkimessage_protection toy toy_rnd (with_alg a v [3; 1; 4]) (by_secret (Some [1; 2; 3]) None) = Ok tt /\
  verify_pkimessage_protection toy toy_rnd (with_alg a v [3; 1; 4]) (by_secret (Some [1; 2; 4]) None) = Err EBadMessageCheck.
Proof. cbv zeta. split; [exists [3; 1; 4]; split; reflexivity|]. split; vm_compute; reflexivity. Qed.
Print Assumptions C89_decides_ex.
(** RFC 4210 hashes the shared secret once before anything else. With KMAC or GMAC this is not done: the key is a prefix of
    the secret when that is long enough. *)
Theorem C89_key_refuted : exists L ss data v, lib_ok L /\ length ss = 40%nat /\
  compute_dh_based_mac_from_alg_id L ss (dh_alg "id_sha1" "id_KMACWithSHAKE256") data = Ok v /\
  l_kmac L "shake256" (firstn 32 ss) data = Ok v /\
  forall n, l_kmac L "shake256" (firstn 32 (base_stream L "sha1" (l_hash L "sha1" ss) n)) data <> Ok v.
Proof.
  exists toy, (repeat 5 40), [1], (9 :: put (sb "shake256") ++ put (repeat 5 32) ++ [1])%list.
  split; [exact toy_ok|]. split; [reflexivity|]. split; [vm_compute; reflexivity|]. split; [vm_compute; reflexivity|].
  intros n H. cbn [toy l_kmac] in H. set (k := firstn 32 _) in H.
  assert (Q : (put (sb "shake256") ++ put k ++ [1] = put (sb "shake256") ++ put (repeat 5 32) ++ [1])%list) by congruence.
  apply app_inv_head in Q. apply put_inj in Q as (Q & _). clear H. subst k. unfold base_stream in Q.
  remember (List.concat _) as t. clear Heqt. vm_compute in Q. discriminate Q.
Qed.
Print Assumptions C89_key_refuted.
(** A message made with a SHA-3 one-way function cannot be protected, although the preparation accepts it. *)
Theorem C89_sha3_refuted : forall L ss data mac,
  sha_alg_name_to_oid "sha3_256" = Ok "id_hash_algs.8" /\
  compute_dh_based_mac_from_alg_id L ss (Alg "id_DHBasedMac" (PDhbm (Alg "id_hash_algs.8" (PRaw [5; 0])) mac)) data = Err EKeyError.
Proof. intros. split; reflexivity. Qed.
Print Assumptions C89_sha3_refuted.

(** ** C90 *)
(** A message protected with a KEM verifies: with the shared secret given to both sides, ... *)
Theorem C90_roundtrip_given : forall L rnd rnd2 seed m o m' s ss w, lib_ok L -> startswith "pbkdf2" (ko_kdf o) = false ->
  protect_kem L rnd seed m o = Ok m' -> ko_ss o = Some s -> str_to_bytes s = Ok ss ->
  v_ss w = Some ss -> (forall k, v_key w = Some k -> is_kem_key k) ->
  verify_pkimessage_protection L rnd2 m' w = (if ko_bad o then Err EBadMessageCheck else Ok tt) /\
  verify_pkimessage_protection L rnd2 (transport L m') w = (if ko_bad o then Err EBadMessageCheck else Ok tt).
Proof. exact kem_roundtrip_given. Qed.
Print Assumptions C90_roundtrip_given.
(** ... with a ciphertext the peer made for the sender's key, ... *)
Theorem C90_roundtrip_decaps : forall L rnd rnd2 seed seed2 m o m' ct k ss w, lib_ok L -> startswith "pbkdf2" (ko_kdf o) = false ->
  protect_kem L rnd seed m o = Ok m' -> ko_ss o = None -> ko_ct o = Some ct -> ko_key o = Some k ->
  l_encaps L k seed2 = Ok (ss, ct) -> v_ss w = Some ss -> (forall k, v_key w = Some k -> is_kem_key k) ->
  verify_pkimessage_protection L rnd2 m' w = (if ko_bad o then Err EBadMessageCheck else Ok tt) /\
  verify_pkimessage_protection L rnd2 (transport L m') w = (if ko_bad o then Err EBadMessageCheck else Ok tt).
Proof. exact kem_roundtrip_decaps. Qed.
Print Assumptions C90_roundtrip_decaps.
(** ... and with the peer's certificate, when the header had no ciphertext before. *)
Theorem C90_roundtrip_encaps : forall L rnd rnd2 seed m o m' c k w, lib_ok L -> startswith "pbkdf2" (ko_kdf o) = false ->
  protect_kem L rnd seed m o = Ok m' -> ko_ss o = None -> ko_ct o = None -> ko_peer o = Some c -> c_pub c = Ok k ->
  (forall j, In j (h_info (m_header m)) -> i_type j <> "id_it_KemCiphertextInfo") -> v_ss w = None -> v_key w = Some k ->
  verify_pkimessage_protection L rnd2 (transport L m') w = (if ko_bad o then Err EBadMessageCheck else Ok tt).
Proof. exact kem_roundtrip_encaps. Qed.
Print Assumptions C90_roundtrip_encaps.
(** What is accepted is exactly the KEM-based MAC of header and body under the secret the verifier has. *)
Theorem C90_accepts : forall L rnd m w p v, prim_ok L -> h_alg (m_header m) = Some (Alg "id_KemBasedMac" p) -> m_prot m = Some v ->
  (verify_pkimessage_protection L rnd m w = Ok tt <->
   exists ss tx data, kem_secret L m w ss /\ h_tx (m_header m) = Some tx /\ part_of L m data /\
     kem_value L (Alg "id_KemBasedMac" p) ss tx data v).
Proof. exact kem_accepts. Qed.
Print Assumptions C90_accepts.
Theorem C90_rejects : forall L rnd m w p v v' ss tx data, prim_ok L -> h_alg (m_header m) = Some (Alg "id_KemBasedMac" p) ->
  m_prot m = Some v -> kem_secret L m w ss -> h_tx (m_header m) = Some tx -> part_of L m data ->
  kem_value L (Alg "id_KemBasedMac" p) ss tx data v' -> v' <> v ->
  verify_pkimessage_protection L rnd m w = Err EBadMessageCheck.
Proof. exact kem_rejects. Qed.
Print Assumptions C90_rejects.
Definition kk : key := mk_key (KKem "pq:ml-kem-768") 13.
Definition kem_args (k : option key) (ss : option sval) (p : option cert) (ct : option bytes) (kdf hash : string) (bad : bool) : kopts :=
  {| ko_key := k; ko_ss := ss; ko_peer := p; ko_ct := ct; ko_kdf := kdf; ko_ctx := Some [8]; ko_hash := hash; ko_bad := bad |}.
Example C90_ex : forall kdf, In kdf ["kdf2"; "kdf3"; "hkdf"] ->
  exists m1 m2 m3,
    protect_kem toy toy_rnd [5; 5] msg0 (kem_args None (Some (SvBytes [1; 2])) None None kdf "sha256" false) = Ok m1 /\
    protect_kem toy toy_rnd [5; 5] msg0 (kem_args (Some kk) None None (Some [4; 4]) kdf "sha256" false) = Ok m2 /\
    protect_kem toy toy_rnd [5; 5] msg0 (kem_args None None (Some (mk_cert kk)) None kdf "sha256" false) = Ok m3 /\
    startswith "pbkdf2" kdf = false /\
    verify_pkimessage_protection toy toy_rnd (transport toy m1) (by_secret (Some [1; 2]) None) = Ok tt /\
    verify_pkimessage_protection toy toy_rnd (transport toy m2) (by_secret (Some [13; 4; 4]) None) = Ok tt /\
    verify_pkimessage_protection toy toy_rnd (transport toy m3) (by_secret None (Some kk)) = Ok tt /\
    verify_pkimessage_protection toy toy_rnd (transport toy m1) (by_secret (Some [1; 3]) None) = Err EBadMessageCheck /\
    verify_pkimessage_protection toy toy_rnd (transport toy m3) (by_secret None (Some (mk_key (KKem "pq:ml-kem-768") 14))) = Err EBadMessageCheck.
Proof.
  intros kdf K. cbn [In] in K.
  repeat (destruct K as [<-|K]; [do 3 eexists; repeat split; vm_compute; reflexivity|]). destruct K.
Qed.
Print Assumptions C90_ex.
(** Three ways the round trip fails: PBKDF2 as key derivation, a header that already has a ciphertext, a message that was
    not encoded and decoded. *)
Theorem C90_pbkdf2_refuted : exists L rnd seed m o m' w, lib_ok L /\ protect_kem L rnd seed m o = Ok m' /\
  ko_bad o = false /\ ko_kdf o = "pbkdf2" /\ ko_ss o = Some (SvBytes [1; 2]) /\ v_ss w = Some [1; 2] /\ v_key w = None /\
  forall r, verify_pkimessage_protection L r (transport L m') w <> Ok tt.
Proof.
  exists toy, toy_rnd, [], msg0, (kem_args None (Some (SvBytes [1; 2])) None None "pbkdf2" "sha256" false).
  eexists. exists (by_secret (Some [1; 2]) None). split; [exact toy_ok|]. split; [vm_compute; reflexivity|].
  repeat (split; [reflexivity|]). intros r H. vm_compute in H. discriminate H.
Qed.
Print Assumptions C90_pbkdf2_refuted.
Definition msg_kct : msg := set_header msg0 (add_info hdr0 {| i_type := kct_type; i_val := PCt (Alg "pq:ml-kem-768" PAbsent) [1] |}).
Theorem C90_second_ciphertext_refuted : exists L rnd seed m o m' c k w, lib_ok L /\ protect_kem L rnd seed m o = Ok m' /\
  ko_bad o = false /\ startswith "pbkdf2" (ko_kdf o) = false /\ ko_ss o = None /\ ko_ct o = None /\ ko_peer o = Some c /\
  c_pub c = Ok k /\ v_ss w = None /\ v_key w = Some k /\
  forall r, verify_pkimessage_protection L r (transport L m') w = Err EBadMessageCheck.
Proof.
  exists toy, toy_rnd, [5; 5], msg_kct, (kem_args None None (Some (mk_cert kk)) None "kdf3" "sha256" false).
  eexists. exists (mk_cert kk), kk, (by_secret None (Some kk)). split; [exact toy_ok|]. split; [vm_compute; reflexivity|].
  repeat (split; [reflexivity|]). intros r. vm_compute. reflexivity.
Qed.
Print Assumptions C90_second_ciphertext_refuted.
Theorem C90_untransported_refuted : exists L rnd seed m o m' c k w, lib_ok L /\ protect_kem L rnd seed m o = Ok m' /\
  ko_bad o = false /\ ko_ss o = None /\ ko_ct o = None /\ ko_peer o = Some c /\ c_pub c = Ok k /\ v_ss w = None /\ v_key w = Some k /\
  forall r, verify_pkimessage_protection L r m' w = Err EPyAsn1 /\ verify_pkimessage_protection L r (transport L m') w = Ok tt.
Proof.
  exists toy, toy_rnd, [5; 5], msg0, (kem_args None None (Some (mk_cert kk)) None "kdf3" "sha256" false).
  eexists. exists (mk_cert kk), kk, (by_secret None (Some kk)). split; [exact toy_ok|]. split; [vm_compute; reflexivity|].
  do 7 (split; [reflexivity|]). intros r. split; vm_compute; reflexivity.
Qed.
Print Assumptions C90_untransported_refuted.

(** ** C91 *)
(** A message protected with a signature key verifies with its public key, given or in the first certificate; with
    enforce_lwcmp exactly when the algorithm is one of the profile. *)
Theorem C91_roundtrip : forall L r1 r2 r3 m prot o m' pa k w, lib_ok L -> protect_pkimessage L r1 r2 m prot o = Ok m' ->
  protection_get prot = Ok pa -> o_key o = Some k -> wf_kind (k_kind k) -> single_key (k_kind k) = true -> o_bad o = false ->
  (pa = PA_SIGNATURE /\ o_rand o = false \/
   pa = PA_PSS /\ k_kind k = KRsa /\ In (dflt (o_hash o) "sha256") ["sha256"; "shake128"; "shake256"]) ->
  v_public w = Some k \/ (v_public w = None /\ exists c l, m_certs m' = (c :: l)%list /\ c_pub c = Ok k) ->
  exists a, h_alg (m_header m') = Some a /\
  (verify_pkimessage_protection L r3 m' w = Ok tt <-> (v_lw w = true -> In (a_oid a) lw_sig)) /\
  (verify_pkimessage_protection L r3 (transport L m') w = Ok tt <-> (v_lw w = true -> In (a_oid a) lw_sig)).
Proof. exact sig_roundtrip. Qed.
Print Assumptions C91_roundtrip.
Definition some_kinds : list kkind := [KRsa; KEc; KEd25519; KEd448; KPq "ml-dsa-65"; KPq "slh-dsa-sha2-128s"; KStf "pq:hss"].
Example C91_roundtrip_ex : forall kd, In kd some_kinds ->
  exists m', protect_pkimessage toy toy_rnd toy_rnd msg0 "signature" (key_args (mk_key kd 3) (Some "sha512")) = Ok m' /\
    (exists c, m_certs m' = [c] /\ c_pub c = Ok (mk_key kd 3)) /\ single_key kd = true /\ wf_kind kd /\
    verify_pkimessage_protection toy toy_rnd (transport toy m') (by_key (Some (mk_key kd 3)) false) = Ok tt /\
    verify_pkimessage_protection toy toy_rnd (transport toy m') (by_key None false) = Ok tt /\
    verify_pkimessage_protection toy toy_rnd (transport toy m') (by_key (Some (mk_key kd 4)) false) = Err EInvalidSignature.
Proof.
  intros kd K. unfold some_kinds in K. cbn [In] in K.
  repeat (destruct K as [<-|K]; [eexists; split; [vm_compute; reflexivity|]; split; [eexists; split; vm_compute; reflexivity|];
    split; [reflexivity|]; split; [vm_compute; tauto|]; repeat split; vm_compute; reflexivity|]). destruct K.
Qed.
Print Assumptions C91_roundtrip_ex.
Example C91_pss_ex : forall h, In h ["sha256"; "shake128"; "shake256"] ->
  (let! m' := protect_pkimessage toy toy_rnd toy_rnd msg0 "rsassa_pss" (key_args (mk_key KRsa 3) (Some h)) in
   verify_pkimessage_protection toy toy_rnd (transport toy m') (by_key (Some (mk_key KRsa 3)) true)) = Ok tt.
Proof.
  intros h H. cbn [In] in H. repeat (destruct H as [<-|H]; [vm_compute; reflexivity|]). destruct H.
Qed.
Print Assumptions C91_pss_ex.
(** RSASSA-PSS with another hash: the identifier names it, the signature is made with SHA-256, and nobody accepts it. *)
Theorem C91_pss_hash_refuted : exists L rnd m o m' k, lib_ok L /\ o_key o = Some k /\ k_kind k = KRsa /\ o_bad o = false /\
  o_hash o = Some "sha512" /\ protect_pkimessage L rnd rnd m "rsassa_pss" o = Ok m' /\
  (exists ha g n, h_alg (m_header m') = Some (Alg "id_RSASSA_PSS" (PPss ha g n)) /\ a_oid ha = "id_sha512") /\
  (exists d v, part_of L m' d /\ m_prot m' = Some v /\ l_verify L (SPss "sha256" 32) k v d = Ok tt) /\
  forall r, verify_pkimessage_protection L r (transport L m') (by_key (Some k) false) = Err EInvalidSignature.
Proof.
  exists toy, toy_rnd, msg0, (key_args (mk_key KRsa 3) (Some "sha512")). eexists. exists (mk_key KRsa 3).
  split; [exact toy_ok|]. do 4 (split; [reflexivity|]). split; [vm_compute; reflexivity|].
  split; [do 3 eexists; split; reflexivity|]. split; [|intro r; vm_compute; reflexivity].
  do 2 eexists. split; [eexists; split; reflexivity|]. split; [reflexivity|]. vm_compute. reflexivity.
Qed.
Print Assumptions C91_pss_hash_refuted.
(** The name rsassa_pss with a key that is not RSA, a DSA key, a composite key: protected, never verified. *)
Theorem C91_other_keys_refuted : exists L rnd m, lib_ok L /\
  (exists m', protect_pkimessage L rnd rnd m "rsassa_pss" (key_args (mk_key KEc 3) None) = Ok m' /\
     forall r, verify_pkimessage_protection L r (transport L m') (by_key (Some (mk_key KEc 3)) false) = Err EValueError) /\
  (exists m', protect_pkimessage L rnd rnd m "signature" (key_args (mk_key KDsa 3) None) = Ok m' /\
     forall r w, verify_pkimessage_protection L r (transport L m') w <> Ok tt) /\
  (exists m', protect_pkimessage L rnd rnd m "signature"
                (key_args (mk_key (KComp (Ok (comp "composite-sig-ml-dsa-44-rsa2048")) (Ok (comp "composite-sig-ml-dsa-44-rsa2048-pss"))) 3) None) = Ok m' /\
     forall r w, verify_pkimessage_protection L r (transport L m') w <> Ok tt).
Proof.
  exists toy, toy_rnd, msg0. split; [exact toy_ok|].
  split; [eexists; split; [vm_compute; reflexivity|]; intro r; vm_compute; reflexivity|].
  split; (eexists; split; [vm_compute; reflexivity|]; intros r [k p q s []] H; vm_compute in H; discriminate H).
Qed.
Print Assumptions C91_other_keys_refuted.

(** ** C92 *)
(** A signature is accepted under an algorithm identifier exactly when the identifier, with its parameters, fits the key
    and the signature verifies with the scheme it names. *)
Theorem C92_identifier : forall L k a data sig, wf_kind (k_kind k) ->
  (verify_signature_with_alg_id L k a data sig = Ok tt <->
   exists s, sig_scheme L a (k_kind k) s /\ l_verify L s k sig data = Ok tt).
Proof. exact sig_exact. Qed.
Print Assumptions C92_identifier.
(** The same for a message and a public key. *)
Theorem C92_message : forall L rnd m w a v k data, wf_kind (k_kind k) ->
  h_alg (m_header m) = Some a -> ~ In (a_oid a) secret_oids -> m_prot m = Some v -> v_public w = Some k -> part_of L m data ->
  (verify_pkimessage_protection L rnd m w = Ok tt <->
   (v_lw w = true -> In (a_oid a) lw_sig) /\ is_comp (k_kind k) = false /\
   exists s, sig_scheme L a (k_kind k) s /\ l_verify L s k v data = Ok tt).
Proof. exact sig_decides. Qed.
Print Assumptions C92_message.
(** With the certificate in the message, for an identifier that fits the key. *)
Theorem C92_certificate_partial : forall L rnd m w a v c l k s data,
  h_alg (m_header m) = Some a -> ~ In (a_oid a) secret_oids -> m_prot m = Some v -> v_public w = None ->
  m_certs m = (c :: l)%list -> c_pub c = Ok k -> part_of L m data -> single_key (k_kind k) = true ->
  sig_scheme L a (k_kind k) s ->
  (verify_pkimessage_protection L rnd m w = Ok tt <->
   (v_lw w = true -> In (a_oid a) lw_sig) /\ l_verify L s k v data = Ok tt).
Proof. exact sig_decides_cert. Qed.
Print Assumptions C92_certificate_partial.
(** Two messages accepted with one signature and one key are the same header and body, or one signature is valid for two
    inputs. *)
Theorem C92_tamper : forall L rnd m1 m2 w a1 a2 v k, lib_ok L -> wf_kind (k_kind k) ->
  h_alg (m_header m1) = Some a1 -> ~ In (a_oid a1) secret_oids -> m_prot m1 = Some v ->
  h_alg (m_header m2) = Some a2 -> ~ In (a_oid a2) secret_oids -> m_prot m2 = Some v ->
  v_public w = Some k -> wf_header L (m_header m1) = true -> wf_header L (m_header m2) = true ->
  verify_pkimessage_protection L rnd m1 w = Ok tt -> verify_pkimessage_protection L rnd m2 w = Ok tt ->
  (wire_header L (m_header m1) = wire_header L (m_header m2) /\ m_body m1 = m_body m2) \/
  (exists d1 d2 s1 s2, d1 <> d2 /\ part_of L m1 d1 /\ part_of L m2 d2 /\
     l_verify L s1 k v d1 = Ok tt /\ l_verify L s2 k v d2 = Ok tt).
Proof. exact sig_tamper. Qed.
Print Assumptions C92_tamper.
Definition rsa_alg (p : params) : algid := Alg "sha256WithRSAEncryption" p.
Definition signed (a : algid) (s : scheme) (k : key) (b : bytes) (c : list cert) : msg :=
  {| m_header := set_alg hdr0 a; m_body := Some b; m_prot := Some (toy_sign s k (part0 a b)); m_certs := c |}.
Example C92_ex :
  let k := mk_key KRsa 3 in
  sig_scheme toy (rsa_alg (PRaw [5; 0])) KRsa (SPkcs1 "sha256") /\ ~ In "sha256WithRSAEncryption" secret_oids /\
  wf_header toy (m_header (signed (rsa_alg (PRaw [5; 0])) (SPkcs1 "sha256") k [3; 1] [])) = true /\
  part_of toy (signed (rsa_alg (PRaw [5; 0])) (SPkcs1 "sha256") k [3; 1] []) (part0 (rsa_alg (PRaw [5; 0])) [3; 1]) /\
  verify_pkimessage_protection toy toy_rnd (signed (rsa_alg (PRaw [5; 0])) (SPkcs1 "sha256") k [3; 1] []) (by_key (Some k) true) = Ok tt /\
  verify_pkimessage_protection toy toy_rnd (signed (rsa_alg PAbsent) (SPkcs1 "sha256") k [3; 1] []) (by_key (Some k) true) = Err EBadSigAlgID /\
  verify_pkimessage_protection toy toy_rnd (signed (rsa_alg (PRaw [5; 0])) (SPkcs1 "sha1") k [3; 1] []) (by_key (Some k) true) = Err EInvalidSignature /\
  verify_pkimessage_protection toy toy_rnd (signed (Alg "ecdsa_with_SHA256" PAbsent) (SPkcs1 "sha256") k [3; 1] []) (by_key (Some k) true) = Err EBadSigAlgID /\
  verify_pkimessage_protection toy toy_rnd (signed (rsa_alg (PRaw [5; 0])) (SPkcs1 "sha256") k [3; 1] [mk_cert k]) (by_key None true) = Ok tt.
Proof.
  cbv zeta. split; [apply SG_rsa; [vm_compute; tauto|right; left; reflexivity]|].
  split; [intro H; vm_compute in H; intuition discriminate|]. split; [vm_compute; reflexivity|].
  split; [exists [3; 1]; split; reflexivity|]. repeat split; vm_compute; reflexivity.
Qed.
Print Assumptions C92_ex.
(** With the certificate in the message neither the parameters nor the family of the algorithm are looked at: a message
    accepted this way is refused when the same key is given as an argument. *)
Theorem C92_certificate_refuted : exists L rnd m1 m2 m3 k, lib_ok L /\
  protect_pkimessage L rnd rnd msg0 "signature" (rand_args k) = Ok m1 /\
  h_alg (m_header m2) = Some (Alg "sha256WithRSAEncryption" PAbsent) /\
  h_alg (m_header m3) = Some (Alg "ecdsa_with_SHA256" (PRaw [5; 0])) /\ k_kind k = KRsa /\
  (forall m, In m [m1; m2; m3] -> exists c, m_certs m = [c] /\ c_pub c = Ok k /\
     verify_pkimessage_protection L rnd (transport L m) (by_key None true) = Ok tt /\
     verify_pkimessage_protection L rnd (transport L m) (by_key (Some k) true) = Err EBadSigAlgID).
Proof.
  exists toy, toy_rnd. eexists.
  exists (signed (rsa_alg PAbsent) (SPkcs1 "sha256") (mk_key KRsa 3) [3; 1] [mk_cert (mk_key KRsa 3)]),
    (signed (Alg "ecdsa_with_SHA256" (PRaw [5; 0])) (SPkcs1 "sha256") (mk_key KRsa 3) [3; 1] [mk_cert (mk_key KRsa 3)]), (mk_key KRsa 3).
  split; [exact toy_ok|]. split; [vm_compute; reflexivity|]. do 3 (split; [reflexivity|]).
  intros m M. cbn [In] in M.
  repeat (destruct M as [<-|M]; [eexists; repeat split; vm_compute; reflexivity|]). destruct M.
Qed.
Print Assumptions C92_certificate_refuted.
(** The identifier of a composite signature is not compared with the one of the key. *)
Theorem C92_composite_refuted : exists L k a sig data n1 n2, lib_ok L /\ k_kind k = KComp (Ok (comp n1)) (Ok (comp n1)) /\ a = Alg (comp n2) PAbsent /\
  n1 <> n2 /\ verify_signature_with_alg_id L k a data sig = Ok tt.
Proof.
  exists toy, (mk_key (KComp (Ok (comp "composite-sig-ml-dsa-44-rsa2048")) (Ok (comp "composite-sig-ml-dsa-44-rsa2048"))) 3).
  eexists. exists (toy_sign (SComp false) (mk_key (KComp (Ok (comp "composite-sig-ml-dsa-44-rsa2048")) (Ok (comp "composite-sig-ml-dsa-44-rsa2048"))) 3) [1]), [1].
  exists "composite-sig-ml-dsa-44-rsa2048", "composite-sig-ml-dsa-65-ed25519".
  split; [exact toy_ok|]. do 2 (split; [reflexivity|]). split; [discriminate|]. vm_compute. reflexivity.
Qed.
Print Assumptions C92_composite_refuted.

(** ** C93 *)
(** Every identifier has at most one kind of protection, and the kind reported is that one. *)
Theorem C93_kind : forall o t, get_protection_type o = Ok t <-> oid_kind o t.
Proof. exact type_exact. Qed.
Print Assumptions C93_kind.
Theorem C93_kind_unique : forall o t t', oid_kind o t -> oid_kind o t' -> t = t'.
Proof. intros o t t' H H'. apply type_exact in H, H'. congruence. Qed.
Print Assumptions C93_kind_unique.
Theorem C93_unknown : forall o, (forall t, ~ oid_kind o t) -> get_protection_type o = Err EUnknownOID.
Proof. exact type_unknown. Qed.
Print Assumptions C93_unknown.
(** For a message: also the caller's permissions, and with enforce_lwcmp the profile. *)
Theorem C93_message : forall h a lw ad ak t, h_alg h = Some a ->
  (get_protection_type_from_pkimessage h lw ad ak = Ok t <->
   oid_kind (a_oid a) t /\ (t = T_KEM -> ak = true) /\ (t = T_DH -> ad = true) /\ (lw = true -> lw_allowed (a_oid a) t)).
Proof. exact kind_exact. Qed.
Print Assumptions C93_message.
Theorem C93_errors : forall h a lw ad ak, h_alg h = Some a ->
  ((forall t, ~ oid_kind (a_oid a) t) -> get_protection_type_from_pkimessage h lw ad ak = Err EUnknownOID) /\
  (forall t, oid_kind (a_oid a) t ->
     get_protection_type_from_pkimessage h lw ad ak = Ok t \/ get_protection_type_from_pkimessage h lw ad ak = Err EBadAlg).
Proof. exact kind_errors. Qed.
Print Assumptions C93_errors.
Example C93_ex :
  oid_kind "id_PBMAC1" T_MAC /\ oid_kind "pq:ml-dsa-65-sha512" T_PQ /\
  get_protection_type_from_pkimessage (set_alg hdr0 (Alg "id_PBMAC1" PAbsent)) true false false = Ok T_MAC /\
  get_protection_type_from_pkimessage (set_alg hdr0 (Alg "id_hmacWithSHA256" PAbsent)) false false false = Ok T_MAC /\
  get_protection_type_from_pkimessage (set_alg hdr0 (Alg "id_hmacWithSHA256" PAbsent)) true false false = Err EBadAlg /\
  get_protection_type_from_pkimessage (set_alg hdr0 (Alg "id_DHBasedMac" PAbsent)) false false true = Err EBadAlg /\
  get_protection_type_from_pkimessage (set_alg hdr0 (Alg "pq:ml-dsa-65-sha512" PAbsent)) false false false = Ok T_PQ /\
  get_protection_type_from_pkimessage (set_alg hdr0 (Alg "pq:ml-dsa-65-sha512" PAbsent)) true false false = Err EBadAlg /\
  get_protection_type_from_pkimessage (set_alg hdr0 (Alg "id_sha256" PAbsent)) false true true = Err EUnknownOID.
Proof.
  split; [apply OK_mac; vm_compute; tauto|]. split; [apply OK_pq; vm_compute; tauto|]. repeat split; vm_compute; reflexivity.
Qed.
Print Assumptions C93_ex.

(** ** C94 *)
(** The ANSI X9.63 key derivation gives exactly the number of bytes asked for, the beginning of the sequence of digests
    numbered from 1, for every length up to the limit of the counter; ... *)
Theorem C94_x963 : forall L ss want other name v2 h d, prim_ok L -> hash_name_to_instance name = Ok h ->
  lookup h ALLOWED_HASH_TYPES = Some d -> 0 <= want <= 4294967295 * d ->
  exists r, compute_ansi_x9_63_kdf L ss want other name v2 = Ok r /\
    r = firstn (Z.to_nat want) (kdf_stream L h v2 ss other (blocks_for want d)) /\ Z.of_nat (length r) = want.
Proof. exact ansi_exact. Qed.
Print Assumptions C94_x963.
(** ... a shorter key is the beginning of a longer one; beyond the limit it refuses. *)
Theorem C94_x963_prefix : forall L ss w1 w2 other name v2 r1 r2 h d, prim_ok L -> hash_name_to_instance name = Ok h ->
  lookup h ALLOWED_HASH_TYPES = Some d -> 0 <= w1 <= w2 -> w2 <= 4294967295 * d ->
  compute_ansi_x9_63_kdf L ss w1 other name v2 = Ok r1 -> compute_ansi_x9_63_kdf L ss w2 other name v2 = Ok r2 ->
  r1 = firstn (Z.to_nat w1) r2.
Proof. exact ansi_prefix. Qed.
Print Assumptions C94_x963_prefix.
Theorem C94_x963_limit : forall L ss want other name v2 h d, prim_ok L -> hash_name_to_instance name = Ok h ->
  lookup h ALLOWED_HASH_TYPES = Some d -> 4294967295 * d < want ->
  compute_ansi_x9_63_kdf L ss want other name v2 = Err EOverflow.
Proof. exact ansi_overflow. Qed.
Print Assumptions C94_x963_limit.
Example C94_x963_ex : exists r, compute_ansi_x9_63_kdf toy [1; 2; 3] 70 [4] "sha256" true = Ok r /\ length r = 70%nat /\
  blocks_for 70 32 = 3%nat /\ slice 32 64 r = l_hash toy "sha256" [1; 2; 3; 0; 0; 0; 2; 4] /\
  slice 32 64 r <> l_hash toy "sha256" [0; 0; 0; 2; 1; 2; 3; 4].
Proof. eexists. split; [vm_compute; reflexivity|]. do 3 (split; [vm_compute; reflexivity|]). vm_compute. discriminate. Qed.
Print Assumptions C94_x963_ex.
(** The key of a DH-based MAC: the base key, then the digests of "1", "2", ... and the base key; the number of bytes is the
    one asked for when the base key is no longer than a digest, and for every key of up to 40 bytes. *)
Theorem C94_dh_key : forall L base want owf h, hash_name_to_instance owf = Ok h -> base <> [] -> 0 <= want ->
  dh_based_mac_derive_key L base want owf =
  Ok (firstn (Z.to_nat want)
        (if want <=? Z.of_nat (length base) then base
         else base_stream L h base (rounds_for want (Z.of_nat (length base))))).
Proof. exact derive_spec. Qed.
Print Assumptions C94_dh_key.
Theorem C94_dh_key_length_partial : forall L base want owf h r, prim_ok L -> hash_name_to_instance owf = Ok h ->
  base <> [] -> 0 <= want -> want <= 40 \/ Z.of_nat (length base) <= digest_size h ->
  dh_based_mac_derive_key L base want owf = Ok r -> Z.of_nat (length r) = want.
Proof.
  intros L base want owf h r P H NB W [W2|B] E; [exact (derive_length_32 _ _ _ _ _ _ P H NB (conj W W2) E)|].
  exact (derive_length_digest _ _ _ _ _ _ P H NB W B E).
Qed.
Print Assumptions C94_dh_key_length_partial.
Example C94_dh_key_ex : exists r, dh_based_mac_derive_key toy (repeat 5 20) 32 "sha1" = Ok r /\ length r = 32%nat.
Proof. eexists. split; vm_compute; reflexivity. Qed.
Print Assumptions C94_dh_key_ex.
(** A base key longer than a digest can yield a shorter key than asked for. *)
Theorem C94_dh_key_length_refuted : forall L base r, prim_ok L -> length base = 33%nat ->
  dh_based_mac_derive_key L base 66 "sha1" = Ok r -> Z.of_nat (length r) = 53.
Proof.
  intros L base r P B E. assert (NB : base <> []) by (destruct base; [discriminate B|discriminate]).
  rewrite (derive_length L base 66 "sha1" "sha1" 20 r P eq_refl eq_refl NB ltac:(lia) E), B. reflexivity.
Qed.
Print Assumptions C94_dh_key_length_refuted.
