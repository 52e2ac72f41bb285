(** Independent vocabulary for the statements about the certificate database:
    histories of API calls and the documented life-cycle graph. *)
From Verif Require Export MockFunModel.
Local Open Scope Z_scope.

(** The two mutating methods of CertificateDB, with all their arguments. *)
Inductive db_op :=
| Add (c : cert) (s : cert_state) (now : Z)
| Change (c : cert) (s : cert_state) (r : option rev_entry) (upd : option cert) (now : Z).

Section Spec.
Variable H : bytes -> bytes.

Definition db_call (d : cert_db) (o : db_op) : result cert_db :=
  match o with
  | Add c s now => add_cert H d c s now
  | Change c s r u now => change_cert_state H d c s r u now
  end.

(** A caller that catches exceptions and carries on: every call happens, the
    rejected ones have no effect. *)
Definition db_step (d : cert_db) (o : db_op) : cert_db :=
  match db_call d o with Ok d' => d' | Err _ => d end.

Definition db_run (d : cert_db) (ops : list db_op) : cert_db := fold_left db_step ops d.

(** The certificate an operation is about and the state it asks for. *)
Definition op_cert (o : db_op) : cert := match o with Add c _ _ => c | Change c _ _ _ _ => c end.
Definition op_target (o : db_op) : cert_state :=
  match o with Add _ s _ => s | Change _ s _ _ _ => s end.
Definition is_add (o : db_op) : bool := match o with Add _ _ _ => true | _ => false end.

(** The successful [add_cert] calls of a history. *)
Fixpoint ok_adds (d : cert_db) (ops : list db_op) : nat :=
  match ops with
  | [] => 0
  | o :: ops' => ((if is_add o && is_ok (db_call d o) then 1 else 0) + ok_adds (db_step d o) ops')%nat
  end.
End Spec.

(** Histories of a revocation store (CertRevStateDB): CRL requests interleaved
    with recorded revocations and updates; [crls_of] lists the issued CRLs. *)
Inductive rv_op := RCrl | RRevoke (es : list rev_entry) | RUpdated (c : cert).
Fixpoint crls_of (H : bytes -> bytes) (serial : cert -> Z) (rv : rev_db) (ops : list rv_op) : list crl :=
  match ops with
  | [] => []
  | RCrl :: t => snd (rv_crl serial rv) :: crls_of H serial (fst (rv_crl serial rv)) t
  | RRevoke es :: t => crls_of H serial (rv_add_rev_entry rv es) t
  | RUpdated c :: t => crls_of H serial (rv_add_updated H rv c) t
  end.

(** Certificates that relying parties must not use any more. *)
Definition out_of_service (s : cert_state) : Prop :=
  s = REVOKED \/ s = UPDATED \/ s = UPDATED_BUT_NOT_CONFIRMED.

(** The documented life cycle (RFC 4210/9483 as described in the class
    docstrings): an edge is an allowed change of the state of one certificate. *)
Inductive edge : cert_state -> cert_state -> Prop :=
| edge_issue_unconfirmed : edge UNKNOWN NOT_CONFIRMED
| edge_issue_confirmed : edge UNKNOWN CONFIRMED
| edge_confirm : edge NOT_CONFIRMED CONFIRMED
| edge_revoke : edge CONFIRMED REVOKED
| edge_revoke_again : edge REVIVED REVOKED
| edge_revive : edge REVOKED REVIVED
| edge_update s : s <> UNKNOWN -> edge s UPDATED
| edge_update_pending s : s <> UNKNOWN -> edge s UPDATED_BUT_NOT_CONFIRMED.

(** The states from which a key update is documented to be possible would be
    CONFIRMED, REVIVED and UPDATED_BUT_NOT_CONFIRMED; the strict graph: *)
Inductive strict_edge : cert_state -> cert_state -> Prop :=
| sedge_edge a b : edge a b -> b <> UPDATED -> b <> UPDATED_BUT_NOT_CONFIRMED -> strict_edge a b
| sedge_update a : a = CONFIRMED \/ a = REVIVED \/ a = UPDATED_BUT_NOT_CONFIRMED -> strict_edge a UPDATED
| sedge_pending a : a = CONFIRMED \/ a = REVIVED \/ a = UPDATED_BUT_NOT_CONFIRMED ->
                    strict_edge a UPDATED_BUT_NOT_CONFIRMED.

(** What no call may ever change about a stored entry. *)
Definition same_identity (a b : db_entry) : Prop :=
  e_cert a = e_cert b /\ e_digest a = e_digest b /\ e_issue a = e_issue b.

(** "k shares key material with k'": equal, or one is a component of the other,
    or they have a component in common. *)
Definition components (k : pubkey) : list bytes :=
  match k with Plain x => [x] | Hybrid _ p t => [p; t] end.
Definition shares (k k' : pubkey) : Prop := exists x, In x (components k) /\ In x (components k').

(** A chain of key updates inside a database. *)
Definition replaces (H : bytes -> bytes) (l : list db_entry) (a b : cert) : Prop :=
  exists ea eb, In ea l /\ In eb l /\ e_cert ea = a /\ e_cert eb = b /\
                e_upd_digest ea = Some (e_digest eb).
Fixpoint chain {A} (R : A -> A -> Prop) (l : list A) : Prop :=
  match l with
  | a :: ((b :: _) as t) => R a b /\ chain R t
  | _ => True
  end.
