(** General messages: C138 - C148. *)
From Coq Require Import String.
From Verif Require Import Prelude PreludeFacts PyStr ProtToy ChamToy GenModel GenSpec GenProofs GenHandler GenReply.
Open Scope string_scope.
Open Scope Z_scope.
Open Scope list_scope.
Local Notation length := List.length.

(** ** A library for the examples; not a model of any code in /repo *)

Definition td {A} (c : codec A) : der A := {| enc := en c; dec := de c |}.
Lemma td_good A (c : codec A) : good c -> faithful (td c).
Proof. intros G x. unfold reads. cbn [td dec enc]. pose proof (G x []) as H. now rewrite app_nil_r in H. Qed.

Definition c_talg : codec alg := c_map (fun p => {| a_oid := fst p; a_par := snd p |}) (fun a => (a_oid a, a_par a)) (c_pair c_str (c_opt c_bytes)).
Definition c_upd : codec update :=
  c_map (fun p => {| u_nwo := fst p; u_nwn := fst (snd p); u_own := snd (snd p) |}) (fun u => (u_nwo u, (u_nwn u, u_own u)))
        (c_pair (c_opt c_bytes) (c_pair (c_opt c_bytes) (c_opt c_bytes))).
Definition c_tmpl : codec template :=
  c_map (fun p => match p with (a, (b, (c, (d, (e, f))))) => {| t_key := a; t_serial := b; t_sig := c; t_iuid := d; t_suid := e; t_spec := f |} end)
        (fun t => (t_key t, (t_serial t, (t_sig t, (t_iuid t, (t_suid t, t_spec t))))))
        (c_pair c_bool (c_pair c_bool (c_pair c_bool (c_pair c_bool (c_pair c_bool (c_opt (c_list (c_pair c_str c_bytes)))))))).
Definition c_ek : codec enckey :=
  c_map (fun o => match o with None => EncValue | Some d => EnvData d end) (fun e => match e with EncValue => None | EnvData d => Some d end) (c_opt c_bytes).
Definition c_src : codec source :=
  c_map (fun p => if fst p =? 0 then Issuer (snd p) else if fst p =? 1 then FullName (snd p) else Relative (snd p))
        (fun s => match s with Issuer n => (0, n) | FullName n => (1, n) | Relative n => (2, n) end) (c_pair c_z c_bytes).
Definition c_stat : codec status :=
  c_map (fun p => {| s_src := fst p; s_time := snd p |}) (fun s => (s_src s, s_time s)) (c_pair c_src (c_opt c_z)).
Definition c_unit : codec unit := {| en := fun _ => [5; 0]; de := fun l => match l with a :: b :: r => Some (tt, r) | _ => None end |}.

(** Certificates are [subject; issuer; key ...]; the signature holds when the issuer byte names the issuer's subject. *)
Definition toy : lib := {|
  l_int := fun s => if String.eqb s "1" then Some 1 else None;
  l_certs := td (c_list c_bytes); l_cert := td c_bytes; l_update := td c_upd; l_tmpl := td c_tmpl; l_len := td c_z;
  l_alg := td c_talg; l_curve := td c_str; l_algs := td (c_list c_talg); l_crls := td (c_list c_bytes); l_crl := td c_bytes;
  l_tags := td (c_list c_str); l_profs := td (c_list c_str); l_kem := td (c_pair c_str c_bytes); l_oids := td (c_list c_str);
  l_oid := td c_str; l_null := td c_unit; l_enckey := td c_ek; l_stats := td (c_list c_stat);
  l_blank := [];
  l_chain := fun c cs => Ok (c :: filter (fun d => match c, d with _ :: i :: _, s :: _ => s =? i | _, _ => false end) cs);
  l_openssl := fun l _ => guard (negb (length l =? 0)%nat) EValueError;
  l_signer := fun c i => Ok (match c, i with _ :: a :: _, b :: _ => a =? b | _, _ => false end);
  l_key := fun c => Ok (skipn 2 c);
  l_lint := fun _ => Ok tt; l_crl_lint := fun _ => Ok tt; l_crl_ok := fun c => guard (negb (bytes_eqb c [])) EValueError;
  l_dir_chain := fun c => Ok [c; [1; 1; 9]]; l_anchor := fun c => guard (bytes_eqb c [1; 1; 9]) EValueError;
  l_env_key := fun k => bytes_eqb k [7];
  l_curve_name := fun o => if String.eqb o "1.2.840.10045.3.1.7" then Some "secp256r1" else None;
  l_curves := ["1.2.840.10045.3.1.7"];
  l_known := fun o => if String.eqb o id_aes256 then Some "aes256_cbc" else None;
  l_pq_oids := ["2.16.840.1.101.3.4.3.17"];
  l_kem_pub := fun k => bytes_eqb k [7]; l_kem_oid := fun _ => Ok "2.16.840.1.101.3.4.4.1";
  l_encaps := fun k => Ok (42 :: k, 43 :: k); l_decaps := fun k ct => match ct with 43 :: r => Ok (42 :: r) | _ => Err EValueError end;
  l_open := fun _ d => match d with 1 :: r => Ok r | _ => Err EValueError end;
  l_find := fun n _ => Ok (bytes_eqb n [1]); l_rel := fun n => bytes_eqb n [1]; l_text := fun _ => Ok tt |}.

Definition toy_conf (lw : bool) : conf := {| f_lwcmp := lw; f_root := [1; 1; 9]; f_chain := [[2; 1; 7]; [1; 1; 9]]; f_prot := Some [3; 1; 7]; f_rsa := 2048;
  f_env := Some [[4; 1; 7]]; f_url := "http://127.0.0.1/crl"; f_implicit := true; f_profiles := ["base"] |}.
Definition toy_upd : update := {| u_nwo := Some [5; 1; 8]; u_nwn := Some [5; 5; 8]; u_own := Some [1; 5; 9] |}.
Definition toy_env : env := {| e_crl := fun _ => Ok (en c_bytes [6; 6]); e_update := Ok toy_upd; e_now := 1000 * 3600 * 1000000 |}.
Definition st0 : st := {| phrases := [[8]]; secrets := [([5], [55])]; pending := false |}.
Definition entry o v : item := {| it := o; iv := v |}.
Definition genp l : msg := {| body := "genp"; entries := l; extra := []; pvno := 2; txid := Some [1; 2] |}.
Definition genm l : msg := {| body := "genm"; entries := l; extra := [[2; 1; 7]]; pvno := 3; txid := Some [1; 2] |}.
Definition old_root : cert := [1; 1; 9].

(** ** C138: which answer is looked at *)

Theorem C138_first : forall m o v, entry_of m o = Ok v <-> answer m o v.
Proof. exact entry_iff. Qed.
Print Assumptions C138_first.

Theorem C138_kind : forall L m n, general_response L m n = Ok tt <-> body m = "genp" /\ number L n.
Proof. intros. apply general_iff. Qed.
Print Assumptions C138_kind.

(** Whatever size is expected, the result is the same. *)
Theorem C138_size_ignored : forall L m a b,
  (forall old, root_update L m old (SInt a) = root_update L m old (SInt b)) /\
  (forall must c, request_template L m must c (SInt a) = request_template L m must c (SInt b)) /\
  (forall must k, crl_update L m must (SInt a) k = crl_update L m must (SInt b) k) /\
  current_crl L m (SInt a) = current_crl L m (SInt b) /\
  prot_enc_cert L m (SInt a) = prot_enc_cert L m (SInt b) /\
  signing_types L m (SInt a) = signing_types L m (SInt b) /\
  enc_types L m (SInt a) = enc_types L m (SInt b) /\
  sym_alg L m (SInt a) = sym_alg L m (SInt b) /\
  passphrase_response L m (SInt a) = passphrase_response L m (SInt b) /\
  language_tags L m (SInt a) = language_tags L m (SInt b) /\
  (forall sk, validate_kem L m sk (SInt a) = validate_kem L m sk (SInt b)).
Proof. exact size_ignored. Qed.
Print Assumptions C138_size_ignored.

(** Three entries are accepted where one is expected. *)
Theorem C138_size_refuted : exists L m,
  length (entries m) = 3%nat /\ general_response L m (SInt 1) = Ok tt /\ language_tags L m (SInt 1) = Ok tt.
Proof.
  exists toy, (genp [entry id_caCerts None; entry id_suppLangTags (Some (en (c_list c_str) ["en"])); entry id_crls None]).
  repeat split; reflexivity.
Qed.
Print Assumptions C138_size_refuted.

(** The check of the CA certificates passes without looking at anything when the size is another one, or is given as
    a string. *)
Theorem C138_ca_certs_silent : forall L m must ee n crlc,
  body m = "genp" -> number L n -> n <> SInt (Z.of_nat (length (entries m))) ->
  get_ca_certs L m must ee n crlc = Ok None.
Proof. exact ca_certs_size. Qed.
Print Assumptions C138_ca_certs_silent.

Example C138_silent_some :
  get_ca_certs toy (genp [entry id_caCerts (Some [9])]) true None (SStr "1") true = Ok None /\
  get_ca_certs toy (genp [entry id_caCerts (Some [9])]) true None (SInt 1) true = Err EValueError.
Proof. split; reflexivity. Qed.
Print Assumptions C138_silent_some.

(** ** C139: CA certificates *)

Theorem C139_exact : forall L m must ee n crlc chain,
  get_ca_certs L m must ee n crlc = Ok (Some chain) <->
  body m = "genp" /\ n = SInt (Z.of_nat (length (entries m))) /\
  exists b cs rest, answer m id_caCerts (Some b) /\ dec (l_certs L) b = Some (cs, rest) /\
                    chain_for L ee cs chain /\ l_openssl L chain crlc = Ok tt.
Proof. exact ca_certs_iff. Qed.
Print Assumptions C139_exact.

Example C139_some :
  get_ca_certs toy (genp [entry id_caCerts (Some (en (c_list c_bytes) [[1; 1; 9]; [2; 1; 7]]))]) true None (SInt 1) false =
  Ok (Some [[2; 1; 7]; [1; 1; 9]]).
Proof. reflexivity. Qed.
Print Assumptions C139_some.

(** An answer without certificates is never accepted, although it is allowed when they need not be present. *)
Theorem C139_absent_refuted : forall L m ee n crlc r,
  answer m id_caCerts None -> get_ca_certs L m false ee n crlc <> Ok (Some r).
Proof. intros L m. exact (ca_certs_absent L m false). Qed.
Print Assumptions C139_absent_refuted.
Example C139_absent_some : get_ca_certs toy (genp [entry id_caCerts None]) false None (SInt 1) false = Err EValueError.
Proof. reflexivity. Qed.
Print Assumptions C139_absent_some.

(** Bytes behind the certificates are not noticed. *)
Theorem C139_trailing_refuted : exists L m b cs rest chain,
  faithful (l_certs L) /\ answer m id_caCerts (Some b) /\ dec (l_certs L) b = Some (cs, rest) /\ rest <> [] /\
  get_ca_certs L m true None (SInt 1) true = Ok (Some chain).
Proof.
  exists toy, (genp [entry id_caCerts (Some (en (c_list c_bytes) [[1; 1; 9]] ++ [0; 0]))]).
  exists (en (c_list c_bytes) [[1; 1; 9]] ++ [0; 0]), [[1; 1; 9]], [0; 0], [[1; 1; 9]].
  split; [apply td_good, good_list, good_bytes|]. split; [now apply answer_one|]. repeat split; try reflexivity. discriminate.
Qed.
Print Assumptions C139_trailing_refuted.

(** ** C140: root certificate update *)

Theorem C140_exact : forall L m old n,
  root_update L m (Some old) n = Ok tt <->
  response L m n /\
  (answer m id_rootCaKeyUpdate None \/
   exists b u, answer m id_rootCaKeyUpdate (Some b) /\ reads (l_update L) b u /\ consistent L u old).
Proof. exact update_iff. Qed.
Print Assumptions C140_exact.

Theorem C140_without_old : forall L m n,
  root_update L m None n = Ok tt <->
  response L m n /\
  (answer m id_rootCaKeyUpdate None \/
   exists b u, answer m id_rootCaKeyUpdate (Some b) /\ reads (l_update L) b u /\ u_nwn u <> None /\ u_nwo u <> None).
Proof. exact update_no_old. Qed.
Print Assumptions C140_without_old.

Definition upd_msg u := genp [entry id_rootCaKeyUpdate (Some (en c_upd u))].
Example C140_some :
  root_update toy (upd_msg toy_upd) (Some old_root) (SInt 1) = Ok tt /\
  root_update toy (upd_msg {| u_nwo := Some [5; 2; 8]; u_nwn := Some [5; 5; 8]; u_own := None |}) (Some old_root) (SInt 1) = Err EValueError /\
  root_update toy (upd_msg {| u_nwo := Some [5; 1; 8]; u_nwn := Some [5; 5; 8]; u_own := Some [1; 5; 8] |}) (Some old_root) (SInt 1) = Err EValueError.
Proof. repeat split; reflexivity. Qed.
Print Assumptions C140_some.

(** Without the old certificate not even the self-signature of the new root is checked. *)
Theorem C140_unsigned_refuted : exists L m b u c,
  answer m id_rootCaKeyUpdate (Some b) /\ reads (l_update L) b u /\ u_nwn u = Some c /\ l_signer L c c = Ok false /\
  root_update L m None (SInt 1) = Ok tt.
Proof.
  exists toy, (upd_msg {| u_nwo := Some [5; 1; 8]; u_nwn := Some [5; 6; 8]; u_own := None |}).
  eexists _, _, _. split; [now apply answer_one|]. repeat split; reflexivity.
Qed.
Print Assumptions C140_unsigned_refuted.

(** The certificate that the old key vouches for may hold another key than the new root certificate. *)
Theorem C140_other_key_refuted : exists L m b u nwn nwo k k' old,
  answer m id_rootCaKeyUpdate (Some b) /\ reads (l_update L) b u /\ u_nwn u = Some nwn /\ u_nwo u = Some nwo /\
  l_key L nwn = Ok k /\ l_key L nwo = Ok k' /\ k <> k' /\ root_update L m (Some old) (SInt 1) = Ok tt.
Proof.
  exists toy, (upd_msg {| u_nwo := Some [5; 1; 7]; u_nwn := Some [5; 5; 8]; u_own := None |}).
  eexists _, _, _, _, [8], [7], old_root. split; [now apply answer_one|]. repeat split; try reflexivity. discriminate.
Qed.
Print Assumptions C140_other_key_refuted.

(** ** C141: request template *)

Theorem C141_exact : forall L m must controls n,
  request_template L m must controls n = Ok tt <->
  response L m n /\
  exists b t k v, answer m id_certReqTemplate (Some b) /\ reads (l_tmpl L) b t /\
                  t_spec t = Some [(k, v)] /\ key_spec L k v /\ clean t.
Proof. exact template_iff. Qed.
Print Assumptions C141_exact.

Definition tmpl_msg sp := genp [entry id_certReqTemplate (Some (en c_tmpl
  {| t_key := false; t_serial := false; t_sig := false; t_iuid := false; t_suid := false; t_spec := sp |}))].
Example C141_some :
  request_template toy (tmpl_msg (Some [(id_rsaKeyLen, [2048])])) true true (SInt 1) = Ok tt /\
  request_template toy (tmpl_msg (Some [(id_rsaKeyLen, [2047])])) true true (SInt 1) = Err EValueError /\
  request_template toy (tmpl_msg (Some [(id_algId, en c_talg {| a_oid := id_ec; a_par := Some (en c_str "1.2.840.10045.3.1.7") |})])) true true (SInt 1) = Ok tt /\
  request_template toy (tmpl_msg (Some [(id_algId, en c_talg {| a_oid := id_rsa; a_par := None |})])) true true (SInt 1) = Err EValueError.
Proof. repeat split; reflexivity. Qed.
Print Assumptions C141_some.

(** Neither the template nor its key specification may be left out, although the caller says they may. *)
Theorem C141_optional_refuted : forall L m n,
  (answer m id_certReqTemplate None -> request_template L m false false n <> Ok tt) /\
  (forall b t, answer m id_certReqTemplate (Some b) -> reads (l_tmpl L) b t -> t_spec t = None ->
     request_template L m false false n <> Ok tt).
Proof.
  intros L m n. split.
  - intros A H. apply template_iff in H. destruct H as (_ & b & t & k & v & A' & _). apply entry_iff in A, A'. congruence.
  - intros b t A R S' H. apply template_iff in H. destruct H as (_ & b' & t' & k & v & A' & R' & S'' & _). apply entry_iff in A, A'.
    assert (b' = b) by congruence. subst b'. unfold reads in *. congruence.
Qed.
Print Assumptions C141_optional_refuted.
Example C141_optional_some :
  request_template toy (genp [entry id_certReqTemplate None]) false false (SInt 1) = Err EPyAsn1 /\
  request_template toy (tmpl_msg None) false false (SInt 1) = Err EValueError.
Proof. split; reflexivity. Qed.
Print Assumptions C141_optional_some.

(** Ed25519 and Ed448 are refused exactly when the parameters are absent, as RFC 8410 requires. *)
Theorem C141_edwards_refuted : forall L o v p,
  o = id_Ed25519 \/ o = id_Ed448 -> reads (l_alg L) v {| a_oid := o; a_par := p |} ->
  (alg_id_ctrl L v = Ok tt <-> p <> None).
Proof.
  intros L o v p O R. rewrite alg_ctrl_iff. split.
  - intros (a & R' & C). unfold reads in *. assert (a = {| a_oid := o; a_par := p |}) by congruence. subst a. cbn [a_oid a_par] in C.
    destruct C as [(_ & C) | (C & _)]; [exact C|]. subst o. destruct O; discriminate.
  - intros N. eexists. split; [exact R|]. left. cbn [a_oid a_par]. split; assumption.
Qed.
Print Assumptions C141_edwards_refuted.
Example C141_edwards_some :
  request_template toy (tmpl_msg (Some [(id_algId, en c_talg {| a_oid := id_Ed25519; a_par := None |})])) true true (SInt 1) = Err EValueError /\
  request_template toy (tmpl_msg (Some [(id_algId, en c_talg {| a_oid := id_Ed25519; a_par := Some [5; 0] |})])) true true (SInt 1) = Ok tt.
Proof. split; reflexivity. Qed.
Print Assumptions C141_edwards_some.

(** ** C142: certificate revocation lists *)

Theorem C142_update : forall L m must n k,
  crl_update L m must n k = Ok tt <->
  response L m n /\
  (answer m id_crls None /\ must = false \/
   exists b l, answer m id_crls (Some b) /\ reads (l_crls L) b l /\ Z.of_nat (length l) = k /\
               Forall (fun c => l_crl_ok L c = Ok tt) l).
Proof. exact crl_update_iff. Qed.
Print Assumptions C142_update.

Theorem C142_current : forall L m n,
  current_crl L m n = Ok tt <->
  response L m n /\ exists b c, answer m id_currentCRL (Some b) /\ reads (l_crl L) b c /\ l_crl_lint L c = Ok tt.
Proof. exact current_iff. Qed.
Print Assumptions C142_current.

Example C142_some :
  crl_update toy (genp [entry id_crls (Some (en (c_list c_bytes) [[6]; [7]]))]) true (SInt 1) 2 = Ok tt /\
  crl_update toy (genp [entry id_crls (Some (en (c_list c_bytes) [[6]; []]))]) true (SInt 1) 2 = Err EValueError /\
  crl_update toy (genp [entry id_crls None]) true (SInt 1) 2 = Err EValueError /\
  current_crl toy (genp [entry id_currentCRL (Some (en c_bytes [6]))]) (SInt 1) = Ok tt /\
  current_crl toy (genp [entry id_currentCRL None]) (SInt 1) = Err EPyAsn1.
Proof. repeat split; reflexivity. Qed.
Print Assumptions C142_some.

(** ** C143: key types, algorithms, language, certificates for encryption *)

Theorem C143_signing : forall L m n,
  signing_types L m n = Ok tt <-> response L m n /\ exists b l, answer m id_signKeyPairTypes (Some b) /\ reads (l_algs L) b l.
Proof. exact sign_iff. Qed.
Print Assumptions C143_signing.

Theorem C143_encryption : forall L m n r,
  enc_types L m n = Ok r <->
  response L m n /\ exists b l, answer m id_encKeyPairTypes (Some b) /\ reads (l_algs L) b l /\ l <> [] /\ Forall2 (named L) l r.
Proof. exact enc_iff. Qed.
Print Assumptions C143_encryption.

Theorem C143_symmetric : forall L m n s,
  sym_alg L m n = Ok s <->
  response L m n /\ exists b a, answer m id_preferredSymmAlg (Some b) /\ reads (l_alg L) b a /\
    In (a_oid a) [id_aes128; id_aes192; id_aes256] /\
    (l_known L (a_oid a) = Some s \/ l_known L (a_oid a) = None /\ s = a_oid a).
Proof. exact sym_iff. Qed.
Print Assumptions C143_symmetric.

Theorem C143_language : forall L m n,
  language_tags L m n = Ok tt <->
  response L m n /\ exists b t, answer m id_suppLangTags (Some b) /\ reads (l_tags L) b [t].
Proof. exact tags_iff. Qed.
Print Assumptions C143_language.

Theorem C143_passphrase : forall L m n,
  passphrase_response L m n = Ok tt <->
  response L m n /\ exists x r, entries m = x :: r /\ it x = id_revPassphrase /\ iv x = None.
Proof. exact passphrase_iff. Qed.
Print Assumptions C143_passphrase.

Theorem C143_encryption_cert : forall L m n r,
  prot_enc_cert L m n = Ok r <->
  response L m n /\
  (answer m id_caProtEncCert None /\ r = None \/
   exists b c chain k, answer m id_caProtEncCert (Some b) /\ reads (l_cert L) b c /\ r = Some c /\
     l_dir_chain L c = Ok chain /\ chain <> [] /\ l_anchor L (last chain c) = Ok tt /\ l_openssl L chain false = Ok tt /\
     l_key L c = Ok k /\ l_env_key L k = true).
Proof. exact prot_iff. Qed.
Print Assumptions C143_encryption_cert.

Example C143_some :
  enc_types toy (genp [entry id_encKeyPairTypes (Some (en (c_list c_talg)
    [{| a_oid := id_X448; a_par := None |}; {| a_oid := id_ec; a_par := Some (en c_str "1.2.840.10045.3.1.7") |}]))]) (SInt 1) = Ok ["x448"; "secp256r1"] /\
  enc_types toy (genp [entry id_encKeyPairTypes (Some (en (c_list c_talg) [{| a_oid := id_Ed448; a_par := None |}]))]) (SInt 1) = Err EValueError /\
  sym_alg toy (genp [entry id_preferredSymmAlg (Some (en c_talg {| a_oid := id_aes128; a_par := None |}))]) (SInt 1) = Ok id_aes128 /\
  language_tags toy (genp [entry id_suppLangTags (Some (en (c_list c_str) ["en"; "de"]))]) (SInt 1) = Err EValueError /\
  passphrase_response toy (genp [entry id_revPassphrase (Some [])]) (SInt 1) = Err EValueError /\
  signing_types toy (genp [entry id_signKeyPairTypes (Some (en (c_list c_talg) []))]) (SInt 1) = Ok tt /\
  prot_enc_cert toy (genp [entry id_caProtEncCert (Some (en c_bytes [3; 1; 7]))]) (SInt 1) = Ok (Some [3; 1; 7]) /\
  prot_enc_cert toy (genp [entry id_caProtEncCert (Some (en c_bytes [3; 1; 8]))]) (SInt 1) = Err EValueError.
Proof. repeat split; reflexivity. Qed.
Print Assumptions C143_some.

(** ** C144: KEM ciphertexts *)

Theorem C144_client : forall L m sk n ss,
  validate_kem L m (Some sk) n = Ok ss <->
  response L m n /\ exists b o ct, answer m id_KemCiphertextInfo (Some b) /\ reads (l_kem L) b (o, ct) /\ l_decaps L sk ct = Ok ss.
Proof. exact kem_iff. Qed.
Print Assumptions C144_client.

Theorem C144_server : forall L m n ss l,
  genp_kem L m n = Ok (ss, l) <->
  body m = "genm" /\ Z.of_nat (length (entries m)) = n /\ (exists v, answer m id_KemCiphertextInfo v) /\
  exists c r k o ct, extra m = c :: r /\ l_key L c = Ok k /\ l_kem_pub L k = true /\ l_encaps L k = Ok (ss, ct) /\
    l_kem_oid L k = Ok o /\ l = [{| it := id_KemCiphertextInfo; iv := Some (enc (l_kem L) (o, ct)) |}].
Proof. exact genp_kem_iff. Qed.
Print Assumptions C144_server.

(** The client derives the secret of the server from the answer. *)
Theorem C144_agree : forall L q n ss l m k sk c r size,
  faithful (l_kem L) -> genp_kem L q n = Ok (ss, l) -> extra q = c :: r -> l_key L c = Ok k -> kem_pair L k sk ->
  response L m size -> entries m = l -> validate_kem L m (Some sk) size = Ok ss.
Proof. exact kem_agree. Qed.
Print Assumptions C144_agree.

Lemma toy_pair : kem_pair toy [7] [7].
Proof. intros ss ct H. cbn in H. injection H as <- <-. reflexivity. Qed.
Example C144_some :
  faithful (l_kem toy) /\ kem_pair toy [7] [7] /\
  exists l, genp_kem toy (genm [entry id_KemCiphertextInfo None]) 1 = Ok ([42; 7], l) /\ validate_kem toy (genp l) (Some [7]) (SInt 1) = Ok [42; 7].
Proof.
  split; [apply td_good, good_pair; [apply good_str | apply good_bytes]|]. split; [exact toy_pair|]. eexists. split; reflexivity.
Qed.
Print Assumptions C144_some.

(** The algorithm named beside the ciphertext is not looked at. *)
Theorem C144_algorithm_refuted : forall L sk o o' ct n,
  faithful (l_kem L) -> number L n ->
  validate_kem L (genp [entry id_KemCiphertextInfo (Some (enc (l_kem L) (o, ct)))]) (Some sk) n =
  validate_kem L (genp [entry id_KemCiphertextInfo (Some (enc (l_kem L) (o', ct)))]) (Some sk) n.
Proof.
  intros L sk o o' ct n Fa N. unfold validate_kem.
  assert (G : forall p, general_response L (genp [entry id_KemCiphertextInfo (Some p)]) n = Ok tt) by (intros p; apply general_iff; split; [reflexivity | exact N]).
  rewrite !G. cbn [bind]. assert (A : forall p, entry_of (genp [entry id_KemCiphertextInfo (Some p)]) id_KemCiphertextInfo = Ok (Some p)) by reflexivity.
  rewrite !A. cbn [bind guard]. unfold try_decode. pose proof (Fa (o, ct)) as X. pose proof (Fa (o', ct)) as Y. unfold reads in *. rewrite X, Y. reflexivity.
Qed.
Print Assumptions C144_algorithm_refuted.

(** A request that carries a value, which must be absent, is answered. *)
Theorem C144_value_refuted : exists L m b p,
  answer m id_KemCiphertextInfo (Some b) /\ genp_kem L m 1 = Ok p.
Proof. exists toy, (genm [entry id_KemCiphertextInfo (Some [1; 2; 3])]). do 2 eexists. split; [now apply answer_one | reflexivity]. Qed.
Print Assumptions C144_value_refuted.

(** ** C145: what the Mock CA answers *)

Theorem C145_answers : forall L F E s m s' is,
  process_genm L F E s m = (s', Ok is) ->
  entries m <> [] /\ (f_lwcmp F = true -> length (entries m) = 1%nat) /\
  Forall2 (fun e i => In (it e) answered /\ (In (it e) no_value -> iv e = None) /\ it i = answer_type (it e)) (entries m) is.
Proof. exact process_ok. Qed.
Print Assumptions C145_answers.

(** A message is answered iff each of its entries can be, and with these answers. *)
Theorem C145_exact : forall L F E s m is,
  (exists s', process_genm L F E s m = (s', Ok is)) <->
  entries m <> [] /\ (f_lwcmp F = true -> length (entries m) = 1%nat) /\ Forall2 (reply L F E m) (entries m) is.
Proof. exact process_reply. Qed.
Print Assumptions C145_exact.

Theorem C145_number : forall F L E s m,
  entries m = [] \/ f_lwcmp F = true /\ (1 < length (entries m))%nat -> process_genm L F E s m = (s, Err EBadRequest).
Proof. exact process_bad. Qed.
Print Assumptions C145_number.

Theorem C145_refused : forall L F E s m e,
  In e (entries m) -> ~ In (it e) answered \/ In (it e) no_value /\ iv e <> None ->
  exists x s', process_genm L F E s m = (s', Err x).
Proof. exact process_never. Qed.
Print Assumptions C145_refused.

Example C145_some :
  exists s' is, process_genm toy (toy_conf false) toy_env st0
    (genm [entry id_caCerts None; entry id_rootCaCert None; entry id_suppLangTags (Some (en (c_list c_str) ["de"]))]) = (s', Ok is) /\
    map it is = [id_caCerts; id_rootCaKeyUpdate; id_suppLangTags] /\
    process_genm toy (toy_conf true) toy_env st0 (genm [entry id_caCerts None; entry id_caCerts None]) = (st0, Err EBadRequest) /\
    process_genm toy (toy_conf true) toy_env st0 (genm [entry id_unsupportedOIDs (Some (en (c_list c_str) ["1.2"; id_aes256]))]) =
      (st0, Ok [entry id_unsupportedOIDs (Some (en (c_list c_str) ["1.2"]))]).
Proof. do 2 eexists. repeat split; reflexivity. Qed.
Print Assumptions C145_some.

(** The handler has code that answers a key pair parameter request and, when it supports it, the implicit
    confirmation; no message reaches those answers. *)
Theorem C145_implemented_refuted : forall L F E s v tx c,
  let m o := {| body := "genm"; entries := [entry o v]; extra := c; pvno := 3; txid := tx |} in
  (exists x, process_genm L F E s (m id_keyPairParamReq) = (s, Err x)) /\
  (exists x, process_genm L F E s (m id_implicitConfirm) = (s, Err x)).
Proof.
  intros L F E s v tx c m. split; unfold process_genm, check_genm; cbn [m entries List.length Nat.ltb Nat.leb]; rewrite andb_false_r;
    cbn [negb guard bind Nat.eqb h_loop]; destruct v as [b|]; eexists; reflexivity.
Qed.
Print Assumptions C145_implemented_refuted.

(** ** C146: the handler's state *)

Theorem C146_state : forall L F E s m s' r,
  process_genm L F E s m = (s', r) ->
  (exists ps, phrases s' = phrases s ++ ps /\
     Forall (fun p => exists e, In e (entries m) /\ opened L m e p) ps /\
     (forall is, r = Ok is -> Forall2 (opened L m) (filter (fun e => String.eqb (it e) id_revPassphrase) (entries m)) ps)) /\
  (forall t, txid m <> Some t -> forall ss, secret s' t ss <-> secret s t ss) /\
  (pending s = true -> pending s' = true) /\
  (forall is, r = Ok is -> (exists e, In e (entries m) /\ it e = id_caProtEncCert) -> pending s' = true).
Proof. exact process_state. Qed.
Print Assumptions C146_state.

(** With Lightweight CMP a refused message leaves no trace. *)
Theorem C146_atomic : forall L F E s m s' x,
  f_lwcmp F = true -> process_genm L F E s m = (s', Err x) -> s' = s.
Proof. exact process_atomic. Qed.
Print Assumptions C146_atomic.

Definition phrase p := entry id_revPassphrase (Some (en c_ek (EnvData (1 :: p)))).
Example C146_some :
  process_genm toy (toy_conf true) toy_env st0 (genm [phrase [77]]) =
    ({| phrases := [[8]; [77]]; secrets := [([5], [55])]; pending := false |}, Ok [entry id_revPassphrase None]) /\
  process_genm toy (toy_conf true) toy_env st0 (genm [phrase [77]; phrase [78]]) = (st0, Err EBadRequest).
Proof. split; reflexivity. Qed.
Print Assumptions C146_some.

(** Without it a refused message may leave its passphrase behind. *)
Theorem C146_rollback_refuted : exists L F E s m s' x,
  process_genm L F E s m = (s', Err x) /\ phrases s' <> phrases s.
Proof.
  exists toy, (toy_conf false), toy_env, st0, (genm [phrase [77]; entry "1.2.3" None]). do 2 eexists. split; [reflexivity | discriminate].
Qed.
Print Assumptions C146_rollback_refuted.

Theorem C146_remove : forall s m s' b t,
  txid m = Some t -> remove_secret s m = Ok (s', b) ->
  (forall ss, ~ secret s' t ss) /\ (b = true <-> exists ss, secret s t ss) /\
  (forall u ss, u <> t -> (secret s' u ss <-> secret s u ss)) /\ phrases s' = phrases s /\ pending s' = pending s.
Proof. exact remove_ok. Qed.
Print Assumptions C146_remove.

Theorem C146_extra_certs : forall F s x s' y,
  patch_extra F s x = (s', y) ->
  pending s' = false /\ phrases s' = phrases s /\ secrets s' = secrets s /\
  (pending s = false -> y = x) /\
  (pending s = true -> forall cs, f_env F = Some cs -> y = x ++ cs) /\
  (pending s = true -> f_env F = None -> y = x).
Proof. exact patch_ok. Qed.
Print Assumptions C146_extra_certs.

Example C146_more :
  remove_secret {| phrases := []; secrets := [([5], [55]); ([1; 2], [3])]; pending := true |} (genm []) =
    Ok ({| phrases := []; secrets := [([5], [55])]; pending := true |}, true) /\
  (exists s' is, process_genm toy (toy_conf true) toy_env st0 (genm [entry id_caProtEncCert None]) = (s', Ok is) /\
     snd (patch_extra (toy_conf true) s' [[9]]) = [[9]; [4; 1; 7]]).
Proof. split; [reflexivity|]. do 2 eexists. split; reflexivity. Qed.
Print Assumptions C146_more.

(** ** C147: the Mock CA's answers pass the client's checks *)

Theorem C147_template : forall L F E s s' q is e m n,
  entries q = [e] -> process_genm L F E s q = (s', Ok is) -> response L m n -> entries m = is ->
  forall must c, faithful (l_tmpl L) -> faithful (l_len L) -> it e = id_certReqTemplate ->
  (request_template L m must c n = Ok tt <-> 2048 <= f_rsa F).
Proof. exact round_template. Qed.
Print Assumptions C147_template.

Theorem C147_language : forall L F E s s' q is e m n,
  entries q = [e] -> process_genm L F E s q = (s', Ok is) -> response L m n -> entries m = is ->
  faithful (l_tags L) -> it e = id_suppLangTags -> language_tags L m n = Ok tt.
Proof. exact round_tags. Qed.
Print Assumptions C147_language.

Theorem C147_symmetric : forall L F E s s' q is e m n,
  entries q = [e] -> process_genm L F E s q = (s', Ok is) -> response L m n -> entries m = is ->
  faithful (l_alg L) -> it e = id_preferredSymmAlg -> l_known L id_aes256 = Some "aes256_cbc" -> sym_alg L m n = Ok "aes256_cbc".
Proof. exact round_sym. Qed.
Print Assumptions C147_symmetric.

Theorem C147_signing : forall L F E s s' q is e m n,
  entries q = [e] -> process_genm L F E s q = (s', Ok is) -> response L m n -> entries m = is ->
  faithful (l_algs L) -> it e = id_signKeyPairTypes -> signing_types L m n = Ok tt.
Proof. exact round_sign. Qed.
Print Assumptions C147_signing.

Theorem C147_encryption : forall L F E s s' q is e m n,
  entries q = [e] -> process_genm L F E s q = (s', Ok is) -> response L m n -> entries m = is ->
  forall names, faithful (l_algs L) -> faithful (l_curve L) -> it e = id_encKeyPairTypes ->
  l_curve_name L id_X25519 = None -> l_curve_name L id_X448 = None ->
  Forall2 (fun o x => l_curve_name L o = Some x) (l_curves L) names ->
  enc_types L m n = Ok (names ++ ["x25519"; "x448"]).
Proof. exact round_enc. Qed.
Print Assumptions C147_encryption.

Theorem C147_passphrase : forall L F E s s' q is e m n,
  entries q = [e] -> process_genm L F E s q = (s', Ok is) -> response L m n -> entries m = is ->
  it e = id_revPassphrase -> passphrase_response L m n = Ok tt.
Proof. exact round_passphrase. Qed.
Print Assumptions C147_passphrase.

Theorem C147_crl : forall L F E s s' q is e m n,
  entries q = [e] -> process_genm L F E s q = (s', Ok is) -> response L m n -> entries m = is ->
  forall c, it e = id_currentCRL -> e_crl E 0%nat = Ok (enc (l_crl L) c) -> faithful (l_crl L) -> l_crl_lint L c = Ok tt ->
  current_crl L m n = Ok tt.
Proof. exact round_crl. Qed.
Print Assumptions C147_crl.

Theorem C147_ca_certs : forall L F E s s' q is e m n,
  entries q = [e] -> process_genm L F E s q = (s', Ok is) -> response L m n -> entries m = is ->
  forall must ee crlc chain,
  faithful (l_certs L) -> it e = id_caCerts -> n = SInt 1 -> chain_for L ee (f_chain F) chain -> l_openssl L chain crlc = Ok tt ->
  get_ca_certs L m must ee n crlc = Ok (Some chain).
Proof. exact round_certs. Qed.
Print Assumptions C147_ca_certs.

Theorem C147_root_update : forall L F E s s' q is e m n,
  entries q = [e] -> process_genm L F E s q = (s', Ok is) -> response L m n -> entries m = is ->
  forall old, faithful (l_update L) -> it e = id_rootCaCert ->
  (forall u, e_update E = Ok u -> consistent L u old) -> root_update L m (Some old) n = Ok tt.
Proof. exact round_update. Qed.
Print Assumptions C147_root_update.

(** The secret that the Mock CA keeps for the transaction is the one the client derives. *)
Theorem C147_kem : forall L F E s m s' is e k c r sk m' n,
  faithful (l_kem L) -> entries m = [e] -> it e = id_KemCiphertextInfo -> process_genm L F E s m = (s', Ok is) ->
  extra m = c :: r -> l_key L c = Ok k -> kem_pair L k sk -> response L m' n -> entries m' = is ->
  exists t ss, txid m = Some t /\ secret s' t ss /\ validate_kem L m' (Some sk) n = Ok ss.
Proof. exact process_kem. Qed.
Print Assumptions C147_kem.

Lemma toy_consistent : consistent toy toy_upd old_root.
Proof.
  exists [5; 5; 8], [5; 1; 8]. repeat split; try reflexivity; injection H as <-; [reflexivity|]. exists [9]. split; reflexivity.
Qed.
Example C147_some :
  faithful (l_tmpl toy) /\ faithful (l_len toy) /\ faithful (l_tags toy) /\ faithful (l_alg toy) /\ faithful (l_algs toy) /\
  faithful (l_curve toy) /\ faithful (l_crl toy) /\ faithful (l_certs toy) /\ faithful (l_update toy) /\ consistent toy toy_upd old_root /\
  forall o, In o [id_certReqTemplate; id_preferredSymmAlg; id_signKeyPairTypes; id_encKeyPairTypes; id_currentCRL; id_caCerts; id_rootCaCert; id_KemCiphertextInfo] ->
    exists s' is, process_genm toy (toy_conf true) toy_env st0 (genm [entry o None]) = (s', Ok is).
Proof.
  split; [apply td_good; apply good_map; [now intros [] | good_tac]|].
  split; [apply td_good, good_z|]. split; [apply td_good; good_tac|].
  split; [apply td_good; apply good_map; [now intros [] | good_tac]|].
  split; [apply td_good, good_list; apply good_map; [now intros [] | good_tac]|].
  split; [apply td_good; good_tac|]. split; [apply td_good; good_tac|]. split; [apply td_good; good_tac|].
  split; [apply td_good; apply good_map; [now intros [] | good_tac]|]. split; [exact toy_consistent|].
  intros o H. cbn [In] in H. repeat (destruct H as [<- | H]; [do 2 eexists; reflexivity|]). destruct H.
Qed.
Print Assumptions C147_some.

(** ** C148: CRL update retrieval by the Mock CA *)

Theorem C148_exact : forall L F E e i cur,
  faithful (l_crls L) -> crls_good L E cur -> h_crls L F E e = Ok i ->
  exists b l, iv e = Some b /\ reads (l_stats L) b l /\ l <> [] /\
    ((exists x, In x l /\ names_ca L F x /\ outdated E x) ->
       exists b' ds, iv i = Some b' /\ reads (l_crls L) b' ds /\ ds <> [] /\ Forall (fun c => c = cur) ds) /\
    (~ (exists x, In x l /\ names_ca L F x /\ outdated E x) -> iv i = None).
Proof. exact crls_answer. Qed.
Print Assumptions C148_exact.

Definition stat src t := entry id_crlStatusList (Some (en (c_list c_stat) [{| s_src := src; s_time := t |}])).
Example C148_some :
  faithful (l_crls toy) /\ crls_good toy toy_env [6; 6] /\
  h_crls toy (toy_conf true) toy_env (stat (Issuer [1]) (Some (974 * 3600 * 1000000))) = Ok (entry id_crls (Some (en (c_list c_bytes) [[6; 6]]))) /\
  h_crls toy (toy_conf true) toy_env (stat (FullName [1]) (Some (975 * 3600 * 1000000))) = Ok (entry id_crls None) /\
  h_crls toy (toy_conf true) toy_env (stat (Relative [2]) None) = Ok (entry id_crls None).
Proof.
  split; [apply td_good; good_tac|]. split; [intros i; eexists; split; [reflexivity|]; split; [discriminate | reflexivity]|].
  repeat split; vm_compute; reflexivity.
Qed.
Print Assumptions C148_some.
