(** Vocabulary of the properties of paired ("chameleon") certificates and requests. *)
From Coq Require Import String Permutation.
From Verif Require Import Prelude ChamModel.
Open Scope string_scope.
Open Scope Z_scope.
Open Scope list_scope.

(** ** What is assumed of the libraries *)

Record cham_ok (L : lib) : Prop := {
  (** Decoding gives back what was encoded. *)
  ck_dcd : forall d, l_ddec L (l_denc L d) = Some (d, []);
  ck_req : forall q, l_qdec L (l_qenc L q) = Ok q;
  ck_bits : forall s, l_sdec L (l_senc L s) = Ok s;
  ck_exts : forall x, l_xdec L (l_xenc L x) = Ok x;
  ck_kid : forall k, l_kdec L (l_kenc L k) = Ok k;
  ck_spki : forall p b, l_load L (l_spki L p b) = Ok p;
  (** A signature verifies under the algorithm identifier prepared for it. *)
  ck_sig : forall k h pss a d s, l_alg L k h pss = Ok a -> l_sign L k h pss d = Ok s -> l_verify L (s_pub k) a d s = Ok tt;
  (** Attributes are a set: their order does not matter to the encoding. *)
  ck_set : forall i l l', Permutation l l' -> l_info L (set_attrs i l) = l_info L (set_attrs i l')
}.

(** ** Certificates *)

(** The types of a list of extensions. *)
Definition ids (l : list ext) : list oid := map x_id l.
(** The extensions of a certificate other than its descriptors. *)
Definition others (l : list ext) : list ext := filter (fun e => negb (String.eqb (x_id e) DCD)) l.
(** The first descriptor of a certificate, decoded, with nothing after it. *)
Definition descriptor (L : lib) (c : cert) (d : dcd) : Prop :=
  exists e before after, t_exts (c_tbs c) = before ++ e :: after /\ ~ In DCD (ids before) /\ x_id e = DCD /\
    l_ddec L (x_val e) = Some (d, []).
(** When the delta certificate can be had back from a paired certificate made of it and of a base certificate. *)
Record recoverable (delta : cert) (base : tbs) (paired : cert) : Prop := {
  rc_version : t_version (c_tbs delta) = t_version base;
  rc_uids : t_uids (c_tbs delta) = t_uids base;
  rc_exts : ids (t_exts (c_tbs delta)) = ids (t_exts base);
  rc_alg : (t_alg (c_tbs delta) = t_alg base /\ t_alg (c_tbs delta) = t_alg (c_tbs paired) /\ c_alg delta = c_alg paired) \/
           (t_alg (c_tbs delta) <> t_alg base /\ g_par (t_alg (c_tbs delta)) = None /\ c_alg delta = t_alg (c_tbs delta))
}.
(** The value given by the descriptor if there is one, that of the certificate otherwise. *)
Definition given {A} (o : option A) (default v : A) : Prop := o = Some v \/ (o = None /\ v = default).

(** ** Requests *)

(** The value of the last attribute of a type. *)
Definition last_value (t : oid) (l : list attr) (v : bytes) : Prop :=
  exists before a after, l = before ++ a :: after /\ a_type a = t /\ a_val a = v /\ ~ In t (map a_type after).
Definition first_value (t : oid) (l : list attr) (v : bytes) : Prop :=
  exists before a after, l = before ++ a :: after /\ a_type a = t /\ a_val a = v /\ ~ In t (map a_type before).
(** The request information without the signatures of the delta key. *)
Definition unsigned (i : info) : info :=
  set_attrs i (filter (fun a => negb (String.eqb (a_type a) REQSIG)) (i_attrs i)).
(** Possession of the base key is proven by the request, that of the delta key by its attribute. *)
Definition base_proven (L : lib) (c : csr) : Prop :=
  exists p, l_load L (i_spki (r_info c)) = Ok p /\ p_verify p = true /\
    l_verify L p (r_alg c) (l_info L (r_info c)) (r_sig c) = Ok tt.
Definition delta_proven (L : lib) (c : csr) (q : dreq) : Prop :=
  exists v w s p, last_value REQ (i_attrs (r_info c)) v /\ l_qdec L v = Ok q /\
    last_value REQSIG (i_attrs (r_info c)) w /\ l_sdec L w = Ok s /\
    l_load L (q_spki q) = Ok p /\ p_verify p = true /\
    l_verify L p (match q_alg q with Some a => a | None => r_alg c end) (l_info L (unsigned (r_info c))) s = Ok tt.
(** Every delta request and every signature of one can be decoded. *)
Definition attrs_decode (L : lib) (c : csr) : Prop :=
  forall a, In a (i_attrs (r_info c)) ->
    (a_type a = REQ -> exists q, l_qdec L (a_val a) = Ok q) /\ (a_type a = REQSIG -> exists s, l_sdec L (a_val a) = Ok s).
(** An RSA key has between 2048 and 8192 bits. *)
Definition size_allowed (p : pub) : Prop := forall n, p_rsa p = Some n -> 2048 <= n <= 8192.
(** The request as received: the same, its attributes in any order. *)
Definition received (c c' : csr) : Prop :=
  r_alg c' = r_alg c /\ r_sig c' = r_sig c /\
  exists l, Permutation (i_attrs (r_info c)) l /\ r_info c' = set_attrs (r_info c) l.

(** ** Issuing *)

(** Both parts of the request carry extensions: those asked for in both are issued in both. *)
Definition both_extended (L : lib) (c : csr) (q : dreq) (o : opts) : Prop :=
  exists xs, csr_extensions L (i_attrs (r_info c)) = Ok (Some xs) /\ xs <> [] /\ q_exts q <> [] /\
    (~ In DCD (ids xs) \/ ~ In DCD (ids (q_exts q))) /\
    ((forall i, In i (ids xs) -> In i (ids (q_exts q))) \/ (o_strict o = false /\ o_same o = true)).
(** The extensions the CA adds of its own. *)
Definition own_extensions (o : opts) : Prop :=
  NoDup (ids (o_add o)) /\ ~ In SKI (ids (o_add o)) /\ ~ In DCD (ids (o_add o)).
(** What a certificate issued for a part of the request carries: the identifier of its key, the CA's own extensions and
    those asked for in both parts, in this part's version, unless the CA has its own. *)
Definition carries (L : lib) (o : opts) (p : pub) (asked other l : list ext) : Prop :=
  (forall i, In i (ids l) <->
     (i = SKI /\ o_ski o <> Some false) \/ In i (ids (o_add o)) \/ (i <> SKI /\ In i (ids asked) /\ In i (ids other))) /\
  (forall e, In e l ->
     (x_id e = SKI /\ l_kdec L (x_val e) = Ok (l_ski L p)) \/ In e (o_add o) \/
     (~ In (x_id e) (ids (o_add o)) /\ get_extension asked (x_id e) = Some e)).
(** The identifier of a key, in the certificates the CA adds one to. *)
Definition requested_ski (L : lib) (o : opts) (p : pub) : list ext :=
  match o_ski o with
  | Some true => [{| x_id := SKI; x_crit := o_crit o; x_val := l_kenc L (l_ski L p) |}]
  | _ => []
  end.
