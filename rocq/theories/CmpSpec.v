(** Statement vocabulary for comparisons: names (C130), templates (C131), lists of certificates (C132), requests and keys (C133), revocation (C134). *)
From Coq Require Import String Ascii Permutation.
From Verif Require Import Prelude PyStr ProtTab CatModel CmpModel.
From Verif Require SdModel RelModel.
Open Scope string_scope.
Open Scope Z_scope.
Open Scope list_scope.
Local Notation oid := ProtTab.oid.

(** Two names are the same: their RDNs, in order, have the same attributes, in any order. *)
Definition same_name (a b : rdns) : Prop := Forall2 (@Permutation atv) a b.
(** DER: an RDN is a SET OF, whose order does not count; a tagged encoding is not an untagged one. *)
Record canonical (L : lib) : Prop := {
  w_seq : forall a b, l_seqenc L a = l_seqenc L b <-> same_name a b;
  w_empty : forall a, l_seqenc L a = [48; 0] <-> a = [];
  w_rdn : forall a b, l_rdnenc L a = l_rdnenc L b <-> Permutation a b;
  w_tag : forall t u a b, l_tagged L t (l_seqenc L a) = l_tagged L u (l_seqenc L b) <-> t = u /\ l_seqenc L a = l_seqenc L b;
  w_untagged : forall t a b, l_tagged L t (l_seqenc L a) <> l_seqenc L b
}.
(** An attribute of a name. *)
Definition in_name (x : atv) (n : rdns) : Prop := exists r, In r n /\ In x r.
Definition is_mode (s : string) : Prop := s = "strict" \/ s = "without_tag" \/ s = "contains" \/ s = "contains_seq".

(** The items of a text: blanks at its ends removed, cut at the commas. *)
Definition items (s : string) : list string := split ","%char (strip is_blank s).
(** The field is compared: it is named to be included, or nothing is named to be included and it is not named to be
    excluded. *)
Definition wanted (include exclude : option string) (f : string) : Prop :=
  match include with
  | Some s => In f (items s)
  | None => match exclude with Some s => ~ In f (items s) | None => True end
  end.
(** The public key of the template is that of the certificate; or, if it is empty, its algorithm is. *)
Definition key_agrees (L : lib) (s : spki) (c : cert) : Prop :=
  (k_bits s = [] /\ k_alg s = k_alg (c_key c)) \/ (k_bits s <> [] /\ exists k, l_load L (c_key c) = Ok k /\ l_der L k = l_spkienc L s).
(** A field that is compared and that the template has, agrees with the certificate. *)
Record agree (L : lib) (t : template) (c : cert) (want : string -> Prop) (strict : bool) : Prop := {
  a_serial : want "serialNumber" -> forall n, t_serial t = Some n -> n = c_serial c;
  a_exts : want "extensions" -> forall l e, t_exts t = Some l -> In e l -> exists x, In x (c_exts c) /\ x_id x = x_id e;
  a_issuer : want "issuer" -> forall n, t_issuer t = Some n -> l_seqenc L (n_rdns n) = l_seqenc L (n_rdns (c_issuer c));
  a_subject : want "subject" -> forall n, t_subject t = Some n ->
    if strict then l_seqenc L (n_rdns n) = l_seqenc L (n_rdns (c_subject c))
    else forall x, in_name x (n_rdns n) -> in_name x (n_rdns (c_subject c));
  a_shown : want "subject" -> forall n, t_subject t = Some n ->
    (exists x, l_notation L (n_rdns n) = Ok x) /\ exists y, l_notation L (n_rdns (c_subject c)) = Ok y;
  a_key : want "publicKey" -> forall s, t_key t = Some s -> key_agrees L s c;
  a_from : want "validity" -> forall f u x, t_validity t = Some (f, u) -> f = Some x -> x = c_from c;
  a_to : want "validity" -> forall f u x, t_validity t = Some (f, u) -> u = Some x -> x = c_to c;
  a_iuid : want "issuerUID" -> forall x, t_iuid t = Some x -> c_iuid c = Some x;
  a_suid : want "subjectUID" -> forall x, t_suid t = Some x -> c_suid c = Some x;
  a_version : want "version" -> forall n, t_version t = Some n -> n = c_version c
}.
(** Nothing that is read for comparing fails. *)
Definition readable (L : lib) (t : template) (c : cert) : Prop :=
  (forall n, exists x, l_notation L n = Ok x) /\ (exists k, l_load L (c_key c) = Ok k)
  /\ (forall s, t_key t = Some s -> k_bits s = [] -> k_alg s = k_alg (c_key c)).
(** Without any field. *)
Definition empty_template : template :=
  {| t_version := None; t_serial := None; t_issuer := None; t_validity := None; t_subject := None; t_key := None;
     t_iuid := None; t_suid := None; t_exts := None |}.
(** With the serial number and the issuer only. *)
Definition with_serial (n : Z) (i : name) : template :=
  {| t_version := None; t_serial := Some n; t_issuer := Some i; t_validity := None; t_subject := None; t_key := None; t_iuid := None; t_suid := None;
     t_exts := None |}.

(** The extensions that a request asks for, in its only attribute. *)
Definition asks (L : lib) (r : csr) (l : list ext) : Prop :=
  exists a v more rest, r_attrs r = Some [a] /\ SdModel.t_type a = RelModel.EXT_REQUEST /\ SdModel.t_vals a = v :: more /\ l_extsdec L v = Some (l, rest).

(** The entry names the certificate by its issuer and serial number; all else it names fits. *)
Definition identifies (L : lib) (t : template) (c : cert) : Prop :=
  t_serial t = Some (c_serial c) /\ (exists n, t_issuer t = Some n /\ l_seqenc L (n_rdns n) = l_seqenc L (n_rdns (c_issuer c)))
  /\ (t_version t = None \/ t_version t = Some 1) /\ agree L t c (fun _ => True) true.
(** Its only extension is the reason. *)
Definition gives_reason (D : bytes -> option (Z * bytes)) (x : option (list ext)) (r : string) : Prop :=
  exists e n, x = Some [e] /\ x_id e = CRL_REASONS /\ D (x_val e) = Some (n, []) /\ In (n, r) REASONS.
