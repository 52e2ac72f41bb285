(** Statement vocabulary for the handlers for hybrid certificates (C157 to C161). *)
From Coq Require Import String.
From Verif Require Import Prelude GenModel HyhModel.
From Verif Require MigModel CAModel.
Open Scope string_scope.
Open Scope Z_scope.
Open Scope list_scope.
Local Notation length := List.length.

(** The certificate of the signer of a request, and its kind. *)
Definition signer (q : hreq) (c : cert) : Prop := exists l, h_extra q = c :: l.
Definition kind (V : rev) (c : cert) (k : option string) : Prop := MigModel.is_hybrid (v_looks V c) = Ok k.
(** Neither revoked nor updated. *)
Definition valid (V : rev) (c : cert) : Prop := v_revoked V c = false /\ v_updated V c = false.

(** The same database with other answers for keys, and for all certificates. *)
Definition with_keys (V : rev) (f : bytes -> bytes -> bool) : rev :=
  {| v_looks := v_looks V; v_revoked := v_revoked V; v_updated := v_updated V; v_key_bad := f; v_delta := v_delta V;
     v_delta_key := v_delta_key V; v_form4 := v_form4 V; v_related := v_related V; v_discovered := v_discovered V |}.
Definition with_updates (V : rev) (f : cert -> bool) : rev :=
  {| v_looks := v_looks V; v_revoked := v_revoked V; v_updated := f; v_key_bad := v_key_bad V; v_delta := v_delta V;
     v_delta_key := v_delta_key V; v_form4 := v_form4 V; v_related := v_related V; v_discovered := v_discovered V |}.

(** Protection of the request: by a MAC with the algorithm [a], or not by a MAC. *)
Definition by_mac (L : lib) (q : hreq) (a : string) : Prop := h_alg q = Some a /\ l_kind L a = Ok "mac".
Definition not_by_mac (L : lib) (q : hreq) : Prop := h_alg q = None \/ exists a k, h_alg q = Some a /\ l_kind L a = Ok k /\ k <> "mac".

(** A response with more certificates. *)
Definition more_certs (o o' : out) (l : list cert) : Prop :=
  o_extra o' = o_extra o ++ l /\ o_enc o' = o_enc o /\ o_implicit o' = o_implicit o /\ o_rest o' = o_rest o.

(** [c], [k] and [g] are published under [n], and nothing else has changed. *)
Definition entry {A} (d d' : list (Z * A)) (n : Z) (v : A) : Prop :=
  (forall x, In (n, x) d' <-> x = v) /\ forall m x, m <> n -> (In (m, x) d' <-> In (m, x) d).
Definition publishes (s s' : pub) (n : Z) (c : cert) (k g : bytes) : Prop :=
  entry (t_certs s) (t_certs s') n c /\ entry (t_keys s) (t_keys s') n k /\ entry (t_sigs s) (t_sigs s') n g.

(** The certificates that are made for a request: by the CSR, for a signature key, for a key to encrypt. *)
Definition made (L : lib) (q : hreq) (n : Z) (kl sl : string) (bad : bool) (o : out) (c4 c1 : cert) : Prop :=
  (h_body q = "p10cr" /\ l_csr_sig L q = Ok tt /\ l_csr_cert L q n bad = Ok (c4, c1) /\ l_cp L q c4 = Ok o) \/
  (In (h_body q) ["ir"; "cr"; "kur"; "crr"] /\ l_key L q = Ok Composite /\ l_pop L q = Ok tt /\
   l_cert L q n kl sl bad = Ok (c4, c1) /\ l_answer L q c4 = Ok o) \/
  (h_body q = "ir" /\ l_key L q = Ok HybKem /\ l_cert L q n kl sl false = Ok (c4, c1) /\ l_encrypt L q c4 = Ok o).

Definition key_url (L : lib) (C : conf) (n : Z) : string := (c_url C ++ "/pubkey/" ++ l_show L n)%string.
Definition sig_url (L : lib) (C : conf) (n : Z) : string := (c_url C ++ "/sig/" ++ l_show L n)%string.

(** The same library, with another protection by both keys. *)
Definition with_both (L : lib) (f : out -> result out) : lib :=
  {| l_ids := l_ids L; l_csr_sig := l_csr_sig L; l_csr_cert := l_csr_cert L; l_cp := l_cp L; l_key := l_key L; l_pop := l_pop L;
     l_cert := l_cert L; l_answer := l_answer L; l_encrypt := l_encrypt L; l_alt_key := l_alt_key L; l_alt_sig := l_alt_sig L;
     l_kind := l_kind L; l_protect := fun h o => match h with ByBoth => f o | _ => l_protect L h o end; l_show := l_show L;
     l_rev_sig := l_rev_sig L; l_conf := l_conf L; l_rr := l_rr L |}.

(** A serial number is in use. *)
Definition in_use (s : pub) (n : Z) : Prop := exists c, In (n, c) (t_certs s).
(** [n] is the first of a hundred numbers that is not in use, or the last one if all are. *)
Definition chosen (s : pub) (r : nat -> Z) (n : Z) : Prop :=
  (exists i, (i < 100)%nat /\ n = r i /\ ~ in_use s n /\ forall j, (j < i)%nat -> in_use s (r j)) \/
  ((forall j, (j < 100)%nat -> in_use s (r j)) /\ n = r 99%nat).

Definition to_issue (q : hreq) : Prop := h_body q <> "certConf" /\ h_body q <> "rr".
(** The request may be processed: protected by a MAC, or with a signer that passes the check. *)
Definition passes (V : rev) (L : lib) (q : hreq) : Prop :=
  exists c k, signer q c /\ kind V c k /\
  ((exists a, by_mac L q a) \/ (h_alg q <> None /\ not_by_mac L q /\ revoked_for_issuing V q false = Ok tt)).
(** The request with another certificate of the signer. *)
Definition in_form4 (q : hreq) (f : cert) : hreq :=
  {| h_body := h_body q; h_extra := f :: tl (h_extra q); h_implicit := h_implicit q; h_alg := h_alg q; h_rest := h_rest q |}.
