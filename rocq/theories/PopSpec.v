(** Vocabulary of the properties of certificate request processing. *)
From Coq Require Import String Ascii Permutation.
From Verif Require Import Prelude PyStr CompLoadModel HdrModel ProtTab ProtModel ProtSpec ProtHybSpec PopModel.
Open Scope string_scope.
Open Scope Z_scope.
Local Notation length := List.length.

(** The keys the libraries load have names and identifiers of their tables. *)
Definition keys_known (E : env) : Prop := forall d k, e_load E d = Ok (Pub k) -> wf_kind (k_kind k).
(** The key a request asks a certificate for. *)
Definition asks_for (E : env) (q : reqmsg) (k : key) : Prop :=
  exists d, t_key (r_tmpl (q_req q)) = TKey d /\ e_load E d = Ok (Pub k).
(** The request is signed with the private key it asks a certificate for: the signature of its proof of possession
    verifies over the encoded CertRequest. *)
Definition signed (E : env) (q : reqmsg) : Prop :=
  exists k a v data, asks_for E q k /\ q_popo q = Some (PoSig a v) /\ e_enc E (q_req q) = Some data /\
    sig_valid (e_lib E) a k data v.
(** The request carries the MAC of the encoded CertRequest under the secret agreed between the CA and the requested key. *)
Definition maced (E : env) (q : reqmsg) : Prop :=
  exists k own ss a v data, asks_for E q k /\ q_popo q = Some (PoAgree (PpMac a v)) /\ e_agree E k = Some own /\
    l_ecdh (e_lib E) own k = Ok ss /\ e_enc E (q_req q) = Some data /\
    compute_mac_from_alg_id (e_lib E) (e_rnd E) ss a data = Ok v.
(** The request carries the private key of the requested key, encrypted for the CA and bound to the subject. *)
Definition disclosed (E : env) (m : request) (q : reqmsg) : Prop :=
  exists k k' envelope, asks_for E q k /\ (q_popo q = Some (PoEnc (PpKey envelope)) \/ q_popo q = Some (PoAgree (PpKey envelope))) /\
    e_open E (b_certs m) envelope = Ok (k', true) /\ e_same E k' k = true.
(** The first certificate of the message is that of an accepted RA. *)
Definition from_ra (E : env) (m : request) (o : opts) : Prop :=
  exists c rest, b_certs m = c :: rest /\ (exists x, In x (e_ras E) /\ c_der x = c_der c) /\
    e_eku E (o_eku o) c = Ok tt /\ e_ku E c = Ok tt /\
    (forall x, e_chain E (b_certs m) c = [x] -> e_self E x = true) /\
    (o_chain o = true -> e_openssl E (e_chain E (b_certs m) c) = Ok tt).
(** Central key generation: no proof and no key value. *)
Definition central (E : env) (q : reqmsg) : Prop :=
  q_popo q = None /\ (t_key (r_tmpl (q_req q)) = TAbsent \/ exists a, t_key (r_tmpl (q_req q)) = TEmpty a /\ e_gen E a = Ok tt).
Definition kem_class (k : kkind) : Prop := exists x, k = KKem x.
Definition ecdh_class (k : kkind) : Prop := k = KEc \/ k = KX25519 \/ k = KX448.

Definition template_of (c : issued) : template := match c with IPlain t | IEnc t _ | ICentral t => t end.
(** Why a certificate was issued for the request [q]; [w] is the request whose signature is looked at. *)
Inductive entitled (E : env) (m : request) (o : opts) (w q : reqmsg) : issued -> Prop :=
| EN_central : central E q -> entitled E m o w q (ICentral (r_tmpl (q_req q)))
| EN_ra : forall t, q_popo q = Some PoRa -> (o_ra o = true -> from_ra E m o) ->
    (t_key (r_tmpl (q_req q)) = TAbsent \/ t_key t = t_key (r_tmpl (q_req q))) -> entitled E m o w q (IPlain t)
| EN_signed : forall t k a v, q_popo q = Some (PoSig a v) -> asks_for E q k -> signed E w ->
    t_key t = t_key (r_tmpl (q_req q)) -> entitled E m o w q (IPlain t)
| EN_mac : maced E q -> entitled E m o w q (IPlain (r_tmpl (q_req q)))
| EN_disclosed : disclosed E m q -> entitled E m o w q (IPlain (r_tmpl (q_req q)))
| EN_encipher : forall k, q_popo q = Some (PoEnc (PpNext 0)) -> asks_for E q k -> kem_class (k_kind k) ->
    e_wrap E k = Ok tt -> entitled E m o w q (IEnc (r_tmpl (q_req q)) k)
| EN_agree : forall k n, q_popo q = Some (PoAgree (PpNext n)) -> asks_for E q k -> ecdh_class (k_kind k) ->
    e_wrap E k = Ok tt -> entitled E m o w q (IEnc (r_tmpl (q_req q)) k).

(** What verify_popo_for_cert_request accepts for the request [q]; [w] is the request whose signature is looked at. *)
Inductive pop_ok (E : env) (m : request) (o : opts) (w q : reqmsg) : Prop :=
| PO_central : central E q -> pop_ok E m o w q
| PO_ra : q_popo q = Some PoRa -> (o_ra o = true -> from_ra E m o) -> pop_ok E m o w q
| PO_signed : forall a v, q_popo q = Some (PoSig a v) -> signed E w -> pop_ok E m o w q
| PO_encipher : forall p k, q_popo q = Some (PoEnc p) -> asks_for E q k -> kem_class (k_kind k) -> pop_ok E m o w q
| PO_agree : forall p k, q_popo q = Some (PoAgree p) -> asks_for E q k -> ecdh_class (k_kind k) -> pop_ok E m o w q.

(** The identifiers of the requests. *)
Definition ids (m : request) : list Z := List.map (fun q => r_id (q_req q)) (b_reqs m).
(** The numbers from 0 to n - 1. *)
Definition first_numbers (n : nat) : list Z := List.map Z.of_nat (seq 0 n).
(** The bodies with CertReqMsgs other than cross-certification. *)
Definition own_bodies : list string := ["ir"; "cr"; "kur"].
Definition pss_oids : list oid := ["id_RSASSA_PSS"; "id_RSASSA_PSS_SHAKE128"; "id_RSASSA_PSS_SHAKE256"].
(** The composite key gives the identifier as its own. *)
Definition gives (k : kkind) (o : oid) : Prop :=
  match k with KComp plain pss => exists n, o = comp n /\ (if endswith "-pss" n then pss else plain) = Ok o | _ => True end.
(** The first entry of a type, and entries of pairwise different types. *)
Definition the_first (t : string) (l : list control) (v : bytes) : Prop :=
  exists l1 c l2, l = (l1 ++ c :: l2)%list /\ ct_type c = t /\ ct_val c = v /\ (forall d, In d l1 -> ct_type d <> t).
Definition no_entry (t : string) (l : list control) : Prop := forall d, In d l -> ct_type d <> t.
Definition distinct (l : list control) : Prop := NoDup (List.map ct_type l).
(** The alternative request an RA put into regInfo. *)
Definition alternative (E : env) (q : reqmsg) (r : certreq) : Prop :=
  exists l v, q_info q = Some l /\ the_first "id_regInfo_certReq" l v /\ distinct l /\ e_dec E v = Some (r, []) /\
    r_id r = r_id (q_req q) /\ (t_key (r_tmpl (q_req q)) = TAbsent \/ t_key (r_tmpl r) = t_key (r_tmpl (q_req q))).
(** A subject or a subjectAltName. *)
Definition named (t : template) : Prop := t_null t = false \/ t_san t = true.
(** The template holds no key or an acceptable one. *)
Definition good_key (E : env) (lw : bool) (t : template) : Prop :=
  match t_key t with
  | TKey d => exists k, e_load E d = Ok (Pub k) /\ k_kind k <> KDsa /\
      (k_kind k = KRsa -> 2048 <= e_bits E k <= 8192) /\
      (match k_kind k with KStf _ => e_stf E lw k d = Ok tt | KPq _ | KKem _ | KComp _ _ => e_params E d = false | _ => True end)
  | _ => True
  end.

(** The algorithm identifier is one of the key, its parameters aside. *)
Inductive fits : oid -> kkind -> Prop :=
| F_rsa : forall o h, In (o, h) rsa_hashes -> fits o KRsa
| F_ec : forall o h, In (o, h) ecdsa_hashes -> fits o KEc
| F_ed25519 : fits "id_Ed25519" KEd25519
| F_ed448 : fits "id_Ed448" KEd448
| F_pq : forall n, In n pq_key_names -> fits (pq n) (KPq n)
| F_pre : forall n h, In (n, h) pq_prehash -> fits (pq (n ++ "-" ++ h)) (KPq n)
| F_stf : forall o, In o stateful_oids -> fits o (KStf o)
| F_comp : forall n x y, In n (List.map fst COMPOSITE_SIG_HASH) ->
    (if endswith "-pss" n then y else x) = Ok (comp n) -> fits (comp n) (KComp x y).
(** What regInfo gives: the alternative request if there is one. *)
Definition registered (E : env) (q : reqmsg) (alt : option certreq) : Prop :=
  match q_info q with
  | None => alt = None
  | Some l =>
      (no_entry "id_regInfo_certReq" l /\ alt = None \/ exists r, alternative E q r /\ alt = Some r) /\
      (no_entry "id_regInfo_utf8Pairs" l \/ exists v, the_first "id_regInfo_utf8Pairs" l v /\ distinct l /\ e_utf8 E v = Ok tt)
  end.
(** The certificate can be built. *)
Definition buildable (E : env) (t : template) : Prop :=
  (exists d p, t_key t = TKey d /\ e_load E d = Ok p) /\ e_build E t = Ok tt.
(** Which certificate answers the request [q]; [w] is the first request of the message, [t] the template in force. *)
Inductive answers (E : env) (m : request) (o : opts) (w q : reqmsg) (t : template) : issued -> Prop :=
| AN_central : central E q -> central E w -> (forall d, t_key t <> TKey d) -> e_central E (r_tmpl (q_req q)) = Ok tt ->
    answers E m o w q t (ICentral (r_tmpl (q_req q)))
| AN_ra : q_popo q = Some PoRa -> (o_ra o = true -> from_ra E m o) -> buildable E t -> answers E m o w q t (IPlain t)
| AN_signed : forall k a v, q_popo q = Some (PoSig a v) -> asks_for E q k -> fits (a_oid a) (k_kind k) -> signed E w ->
    buildable E t -> answers E m o w q t (IPlain t)
| AN_mac : maced E q -> (exists k, asks_for E q k /\ ecdh_class (k_kind k)) -> buildable E (r_tmpl (q_req q)) ->
    answers E m o w q t (IPlain (r_tmpl (q_req q)))
| AN_disclosed : forall k p, disclosed E m q -> asks_for E q k ->
    (q_popo q = Some (PoEnc p) /\ kem_class (k_kind k) \/ q_popo q = Some (PoAgree p) /\ ecdh_class (k_kind k)) ->
    buildable E (r_tmpl (q_req q)) -> answers E m o w q t (IPlain (r_tmpl (q_req q)))
| AN_encipher : forall k, q_popo q = Some (PoEnc (PpNext 0)) -> asks_for E q k -> kem_class (k_kind k) ->
    e_wrap E k = Ok tt -> buildable E (r_tmpl (q_req q)) -> answers E m o w q t (IEnc (r_tmpl (q_req q)) k)
| AN_agree : forall k n own, q_popo q = Some (PoAgree (PpNext n)) -> asks_for E q k -> ecdh_class (k_kind k) ->
    e_agree E k = Some own -> e_wrap E k = Ok tt -> buildable E (r_tmpl (q_req q)) -> answers E m o w q t (IEnc (r_tmpl (q_req q)) k).
Definition in_force (q : reqmsg) (alt : option certreq) : template := r_tmpl (match alt with Some r => r | None => q_req q end).

(** ** Batches, key updates, cross-certification, PKCS #10 *)

(** A key update names the certificate it replaces: the first of extraCerts, issued by [ca]. *)
Definition names_old (E : env) (c ca : cert) (l : list control) : Prop :=
  forall x, In x l -> ct_type x = "id_regCtrl_oldCertID" ->
    exists issuer, e_old E (ct_val x) = Some ((issuer, e_serial E c), []) /\ e_issuer E issuer ca = true.
(** The key of the update is not the one of the certificate. *)
Definition fresh_key (E : env) (m : request) (q : reqmsg) : Prop :=
  (forall d, t_key (r_tmpl (q_req q)) <> TKey d) \/
  exists d p c rest old, t_key (r_tmpl (q_req q)) = TKey d /\ e_load E d = Ok p /\ b_certs m = c :: rest /\ c_pub c = Ok old /\
    (forall k, p = Pub k -> e_same E k old = false).
(** The template of a cross-certification request. *)
Definition complete (t : template) : Prop :=
  (exists v, t_version t = Some v /\ v <> 1) /\ t_nb t = true /\ t_na t = true /\ (t_inull t = false \/ t_ian t = true) /\
  named t /\ t_alg t = true.
(** The template of the cross-certificate: that of the request with the extensions it lacks. *)
Definition cross_template (t t' : template) : Prop :=
  t' = ensure_basic_constraints (match t_ku t with None => set_ku t ["digitalSignature"; "keyCertSign"] | _ => t end) /\
  (t_ku t = None \/ exists l, t_ku t = Some (Some l) /\ In "keyCertSign" l).
(** The PKCS #10 request is signed with the key it holds. *)
Definition csr_signed (E : env) (s : csr) : Prop :=
  exists d k, t_key (s_tmpl s) = TKey d /\ e_load E d = Ok (Pub k) /\ sig_valid (e_lib E) (s_alg s) k (s_der s) (s_sig s).
(** What a certificate of a response with the identifier [x] rests on. *)
Inductive vouched (E : env) (m : request) (o : opts) (x : Z) : issued -> Prop :=
| VO_entitled : forall w q c, nth_error (b_reqs m) 0 = Some w -> In q (b_reqs m) -> r_id (q_req q) = x -> entitled E m o w q c ->
    vouched E m o x c
| VO_cross : forall q t, b_reqs m = [q] -> r_id (q_req q) = x -> signed E q -> t_key t = t_key (r_tmpl (q_req q)) ->
    vouched E m o x (IPlain t)
| VO_csr : forall s, b_csr m = Some s -> csr_signed E s -> vouched E m o x (IPlain (s_tmpl s)).
Definition kur_controls (E : env) (m : request) (q : reqmsg) (ca : option cert) (must : bool) : Prop :=
  (r_controls (q_req q) = None /\ must = false) \/
  exists l c rest x, r_controls (q_req q) = Some l /\ b_certs m = c :: rest /\
    (ca = Some x \/ (ca = None /\ exists y, rest = x :: y)) /\ names_old E c x l.
