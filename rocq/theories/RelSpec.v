(** Statement vocabulary for related certificates (C126 to C128) and certificate discovery (C129). *)
From Coq Require Import String.
From Verif Require Import Prelude ProtTab CertChainModel BitModel RelModel.
From Verif Require SdModel.
Open Scope string_scope.
Open Scope Z_scope.
Open Scope list_scope.
Local Notation oid := ProtTab.oid.

(** Encodings can be decoded. *)
Record codecs (L : lib) : Prop := {
  w_oct : forall b, l_octdec L (l_octenc L b) = Some (b, []);
  w_req : forall q, l_reqdec L (l_reqenc L q) = Some (q, []);
  w_sia : forall s, l_siadec L (l_siaenc L s) = Some (s, []);
  w_desc : forall d, l_descdec L (l_descenc L d) = Some (d, [])
}.

(** The first extension, the first attribute of a type; there is none. *)
Definition first_ext (l : list ext) (o : oid) (e : ext) : Prop :=
  exists p q, l = p ++ e :: q /\ x_id e = o /\ forall y, In y p -> x_id y <> o.
Definition no_ext (l : list ext) (o : oid) : Prop := forall y, In y l -> x_id y <> o.
Definition first_attr (l : list attr) (o : oid) (a : attr) : Prop :=
  exists p q, l = p ++ a :: q /\ SdModel.t_type a = o /\ forall y, In y p -> SdModel.t_type y <> o.
Definition no_attr (l : list attr) (o : oid) : Prop := forall y, In y l -> SdModel.t_type y <> o.

(** The hash algorithm: the one given, else that of the algorithm by which the certificate is signed, else (if that has none)
    the one that SignedData uses with it. *)
Definition hash_of (L : lib) (h : option string) (c : cert) (n : string) : Prop :=
  let o := SdModel.g_oid (l_sigalg L c) in
  h = Some n \/ (h = None /\ get_hash_from_oid o true = Ok (Some n))
  \/ (h = None /\ get_hash_from_oid o true = Ok None /\ SdModel.digest_hash o = Ok n).
(** [x] is the digest of the whole certificate [r] by the algorithm named [n]. *)
Definition digest_of (L : lib) (n : string) (r : cert) (x : bytes) : Prop :=
  exists m, hash_name_to_instance n = Ok m /\ x = l_hash L m (c_der r).
(** The extension of [a] holds [s]. *)
Definition holds (L : lib) (a : cert) (s : bytes) : Prop :=
  exists e, first_ext (l_exts L a) RELATED e /\ l_octdec L (x_val e) = Some (s, []).
(** [a] names [r] by its digest. *)
Definition names_cert (L : lib) (a : cert) (h : option string) (r : cert) : Prop :=
  exists s n, holds L a s /\ s <> [] /\ hash_of L h a n /\ digest_of L n r s.
(** No two values have one digest. *)
Definition collision_free (L : lib) : Prop := forall n x y, l_hash L n x = l_hash L n y -> x = y.

(** What is behind a location. *)
Definition located (L : lib) (uri : string) (as_chain : bool) (l : list cert) : Prop :=
  uri <> "" /\ exists b, l_get L uri = Ok b
    /\ if as_chain then b <> [] /\ l_pems L b = Ok l else exists c, l_certdec L b = Some (c, []) /\ l = [c].
(** The request of the attributes. *)
Definition requests (L : lib) (attrs : list attr) (q : req) : Prop :=
  exists a v rest, first_attr attrs REQUEST a /\ SdModel.t_vals a = [v] /\ l_reqdec L v = Some (q, rest).
(** The signature of the request verifies by the key of the certificate. *)
Definition possessed (L : lib) (c : cert) (q : req) (h : option string) : Prop :=
  exists k n, l_load L c = Ok k /\ l_verifies L k = true /\ hash_of L h c n
    /\ l_verify L k (l_timeenc L (q_time q) ++ l_idenc L (q_issuer q) (q_serial q)) (q_sig q) n = Ok tt.
(** The request is fresh, and names and is signed by the first certificate at its location. *)
Definition proved_by (L : lib) (now : Z) (q : req) (max : Z) (as_chain : bool) (h : option string) (c : cert) (rest : list cert) : Prop :=
  q_time q <= now <= q_time q + max /\ located L (q_uri q) as_chain (c :: rest)
  /\ q_issuer q = c_issuer c /\ q_serial q = c_serial c /\ possessed L c q h.

(** A certification authority's certificate, or not one. *)
Definition not_ca (L : lib) (l : list ext) : Prop :=
  no_ext l BASIC \/ exists e, first_ext l BASIC e /\ l_bcdec L (x_val e) = Some (false, []).
(** The attributes ask for extensions. *)
Definition asks_exts (L : lib) (attrs : list attr) (l : list ext) : Prop :=
  exists a v more rest, first_attr attrs EXT_REQUEST a /\ SdModel.t_vals a = v :: more /\ l_extsdec L v = Some (l, rest).
(** The last certificate of a chain is a trust anchor. *)
Definition anchored (chain anchors : list cert) : Prop :=
  exists l c x, chain = l ++ [c] /\ In x anchors /\ c_der c = c_der x.

(** The access description that discovery uses, and the descriptor in it. *)
Definition described (L : lib) (a : access) (d : desc) : Prop :=
  a_method a = DISCOVERY /\ exists v rest, a_loc a = LOther DESCRIPTOR v /\ l_descdec L v = Some (d, rest).
(** A descriptor does not contradict a certificate. *)
Definition fits_desc (L : lib) (c : cert) (d : desc) : Prop :=
  (forall a, d_sig d = Some a -> a = l_sigalg L c) /\ (forall a, d_key d = Some a -> a = l_keyalg L c).

(** The signatures of [k] verify with the key of the certificate [c]. *)
Definition key_of (L : lib) (k : skey) (c : cert) : Prop :=
  exists p, l_load L c = Ok p /\ l_verifies L p = true /\ forall d n s, l_sign L k d n = Ok s -> l_verify L p d s n = Ok tt.
(** The chain that is checked. *)
Definition chain_of (L : lib) (a : cert) (rest : list cert) (load_chain : bool) (pool : list cert) (given : option (list cert)) (chain : list cert) : Prop :=
  match given with
  | Some g => chain = g /\ (load_chain = true \/ rest <> [] \/ exists l, build_chain_from_list (l_chain L) a pool false = Ok l)
  | None => if load_chain then chain = a :: rest
            else match rest with [] => build_chain_from_list (l_chain L) a pool false = Ok chain | _ => chain = a :: rest end
  end.
(** The access description that is looked at. *)
Definition chosen (sia : list access) (index : option nat) (a : access) : Prop :=
  match index with
  | Some i => nth_error sia i = Some a
  | None => exists p q, sia = p ++ a :: q /\ forall y, In y p -> a_method y <> DISCOVERY
  end.
(** The request with another location, and nothing else changed. *)
Definition at_uri (q : req) (u : string) : req :=
  {| q_issuer := q_issuer q; q_serial := q_serial q; q_time := q_time q; q_uri := u; q_sig := q_sig q |}.
