(** What the general message properties say, in terms of the messages, without the model's checks. *)
From Coq Require Import String.
From Verif Require Import Prelude GenModel.
Open Scope string_scope.
Open Scope Z_scope.
Open Scope list_scope.
Local Notation length := List.length.

(** The bytes [b] are exactly one value [x]: nothing is left over. *)
Definition reads {A} (c : der A) (b : bytes) (x : A) : Prop := dec c b = Some (x, []).

(** What the encoder writes is read back completely. *)
Definition faithful {A} (c : der A) : Prop := forall x, reads c (enc c x) x.

(** The first entry of type [o] of the message has the value [v] ([None]: absent). *)
Definition answer (m : msg) (o : oid) (v : option bytes) : Prop :=
  exists pre x post, entries m = pre ++ x :: post /\ it x = o /\ iv x = v /\ Forall (fun y => it y <> o) pre.

(** The message is a general response, and the expected size is a number. *)
Definition number (L : lib) (n : size) : Prop :=
  match n with SInt _ => True | SStr s => exists z, l_int L s = Some z end.
Definition response (L : lib) (m : msg) (n : size) : Prop := body m = "genp" /\ number L n.

(** The chain that is checked for the CA certificates: the end entity's, or the longer one of those that start with
    the first and with the last certificate. *)
Definition chain_for (L : lib) (ee : option cert) (cs chain : list cert) : Prop :=
  match ee with
  | Some e => l_chain L e cs = Ok chain
  | None =>
      let l := match cs with [] => [l_blank L] | _ => cs end in
      exists first mid final c1 c2,
        first :: mid = l /\ l = final ++ [last l first] /\
        l_chain L first mid = Ok c1 /\ l_chain L (last l first) final = Ok c2 /\
        ((length c1 < length c2)%nat /\ chain = c2 \/ (length c2 <= length c1)%nat /\ chain = c1)
  end.

(** A root update is consistent with the old root certificate. *)
Definition consistent (L : lib) (u : update) (old : cert) : Prop :=
  exists nwn nwo,
    u_nwn u = Some nwn /\ u_nwo u = Some nwo /\
    l_signer L nwn nwn = Ok true /\ l_signer L nwo old = Ok true /\
    (forall own, u_own u = Some own ->
       l_signer L own nwn = Ok true /\ exists k, l_key L old = Ok k /\ l_key L own = Ok k) /\
    l_lint L nwn = Ok tt.

(** The key specification of a request template that is accepted: one control that is a long enough RSA modulus, an
    elliptic curve the suite knows, or Ed25519/Ed448 with parameters, or a control of another type. *)
Definition ed (o : oid) : Prop := o = id_Ed25519 \/ o = id_Ed448.
Definition key_spec (L : lib) (t : oid) (v : bytes) : Prop :=
  (t = id_rsaKeyLen /\ exists z, reads (l_len L) v z /\ 2048 <= z) \/
  (t = id_algId /\ exists a, reads (l_alg L) v a /\
     (ed (a_oid a) /\ a_par a <> None \/
      a_oid a = id_ec /\ exists b c s, a_par a = Some b /\ reads (l_curve L) b c /\ l_curve_name L c = Some s)) \/
  (t <> id_rsaKeyLen /\ t <> id_algId).

(** None of the five fields that RFC 9483 section 4.3.3 forbids is in the template. *)
Definition clean (t : template) : Prop :=
  t_key t = false /\ t_serial t = false /\ t_sig t = false /\ t_iuid t = false /\ t_suid t = false.

(** An encryption or key agreement algorithm and the name it is reported with. *)
Definition named (L : lib) (a : alg) (s : string) : Prop :=
  (a_oid a = id_ec /\ exists b c, a_par a = Some b /\ reads (l_curve L) b c /\ l_curve_name L c = Some s) \/
  (a_oid a <> id_ec /\ l_curve_name L (a_oid a) = Some s) \/
  (a_oid a <> id_ec /\ l_curve_name L (a_oid a) = None /\
     (a_oid a = id_rsa /\ s = "rsa" \/ a_oid a = id_X25519 /\ s = "x25519" \/ a_oid a = id_X448 /\ s = "x448")).

(** The KEM private key belongs to the public key: decapsulation inverts encapsulation. *)
Definition kem_pair (L : lib) (pk sk : bytes) : Prop :=
  forall ss ct, l_encaps L pk = Ok (ss, ct) -> l_decaps L sk ct = Ok ss.

(** The type of the entry that answers an entry of the type. *)
Definition answer_type (o : oid) : oid :=
  if String.eqb o id_rootCaCert then id_rootCaKeyUpdate
  else if String.eqb o id_crlStatusList then id_crls else o.

(** The types the handler has answers for. *)
Definition answered : list oid :=
  [id_caProtEncCert; id_signKeyPairTypes; id_encKeyPairTypes; id_preferredSymmAlg; id_currentCRL; id_unsupportedOIDs;
   id_revPassphrase; id_suppLangTags; id_rootCaCert; id_certReqTemplate; id_crlStatusList; id_caCerts;
   id_KemCiphertextInfo].

(** The types whose question must not have a value. *)
Definition no_value : list oid :=
  [id_caProtEncCert; id_signKeyPairTypes; id_encKeyPairTypes; id_preferredSymmAlg; id_currentCRL; id_caCerts;
   id_certReqTemplate; id_KemCiphertextInfo].

(** The secret kept for a transaction. *)
Definition secret (s : st) (t : bytes) (ss : bytes) : Prop :=
  exists pre post, secrets s = pre ++ (t, ss) :: post /\ Forall (fun q => fst q <> t) pre.

(** The CRL status entry names the CA. *)
Definition names_ca (L : lib) (F : conf) (x : status) : Prop :=
  match s_src x with
  | Issuer n => l_find L n None = Ok true
  | FullName n => l_find L n (Some (f_url F)) = Ok true
  | Relative n => l_rel L n = true
  end.
(** Its CRL is unknown or was issued more than 25 hours ago. *)
Definition outdated (E : env) (x : status) : Prop :=
  match s_time x with None => True | Some t => e_now E - t > 25 * 3600 * 1000000 end.

(** The entry is a revocation passphrase: an [EnvelopedData] in a version 3 message that opens to [p]. *)
Definition opened (L : lib) (m : msg) (e : item) (p : bytes) : Prop :=
  it e = id_revPassphrase /\ pvno m = 3 /\
  exists b d, iv e = Some b /\ reads (l_enckey L) b (EnvData d) /\ l_open L m d = Ok p.

(** Every CRL the revocation database produces is a CRL (and so is not empty). *)
Definition crls_good (L : lib) (E : env) (cur : crl) : Prop :=
  forall i, exists b, e_crl E i = Ok b /\ b <> [] /\ reads (l_crl L) b cur.

(** The answer to one entry of a request: its condition and its value, type by type.  The CRLs sent for a list of CRL
    statuses are the subject of C148. *)
Definition unnamed (o : oid) : alg := {| a_oid := o; a_par := None |}.
Definition on_curve (L : lib) (c : oid) : alg := {| a_oid := id_ec; a_par := Some (enc (l_curve L) c) |}.
Definition value_for (L : lib) (F : conf) (E : env) (m : msg) (e : item) (v : option bytes) : Prop :=
  (it e = id_KemCiphertextInfo /\ iv e = None /\
     exists c r k ss ct o, extra m = c :: r /\ l_key L c = Ok k /\ l_kem_pub L k = true /\ l_encaps L k = Ok (ss, ct) /\
       l_kem_oid L k = Ok o /\ txid m <> None /\ v = Some (enc (l_kem L) (o, ct))) \/
  (it e = id_caProtEncCert /\ iv e = None /\ exists c, f_prot F = Some c /\ v = Some (enc (l_cert L) c)) \/
  (it e = id_signKeyPairTypes /\ iv e = None /\
     v = Some (enc (l_algs L) (map unnamed (l_pq_oids L) ++ map unnamed [id_rsa; id_Ed25519; id_Ed448] ++ map (on_curve L) (l_curves L)))) \/
  (it e = id_encKeyPairTypes /\ iv e = None /\
     v = Some (enc (l_algs L) (map (on_curve L) (l_curves L) ++ map unnamed [id_X25519; id_X448]))) \/
  (it e = id_preferredSymmAlg /\ iv e = None /\
     v = Some (enc (l_alg L) {| a_oid := id_aes256; a_par := Some (4 :: 16 :: repeat 65 16) |})) \/
  (it e = id_currentCRL /\ iv e = None /\ exists c, e_crl E 0%nat = Ok c /\ v = Some c) \/
  (it e = id_unsupportedOIDs /\ exists b l u, iv e = Some b /\ reads (l_oids L) b l /\ v = Some (enc (l_oids L) u) /\
     u = filter (fun o => match l_known L o with Some _ => false | None => true end) l) \/
  (it e = id_revPassphrase /\ v = None /\ exists p, opened L m e p) \/
  (it e = id_suppLangTags /\ v = Some (enc (l_tags L) ["en"]) /\
     exists b l, iv e = Some b /\ reads (l_tags L) b l /\ l <> [] /\ Forall (fun t => In t ["en"; "de"; "fr"]) l) \/
  (it e = id_rootCaCert /\ (iv e = None \/ exists b, iv e = Some b /\ reads (l_cert L) b (f_root F)) /\
     exists u, e_update E = Ok u /\ v = Some (enc (l_update L) u)) \/
  (it e = id_rootCaCert /\ v = None /\ exists b c, iv e = Some b /\ reads (l_cert L) b c /\ c <> f_root F) \/
  (it e = id_certReqTemplate /\ iv e = None /\
     v = Some (enc (l_tmpl L) {| t_key := false; t_serial := false; t_sig := false; t_iuid := false; t_suid := false;
                                 t_spec := Some [(id_rsaKeyLen, enc (l_len L) (f_rsa F))] |})) \/
  (it e = id_crlStatusList /\ h_crls L F E e = Ok {| it := id_crls; iv := v |}) \/
  (it e = id_caCerts /\ iv e = None /\ v = Some (enc (l_certs L) (f_chain F))).
Definition reply (L : lib) (F : conf) (E : env) (m : msg) (e i : item) : Prop :=
  it i = answer_type (it e) /\ value_for L F E m e (iv i).
