(** Vocabulary for the statements of CertChainProperties.v. *)
From Coq Require Import String.
From Verif Require Import Prelude CertChainModel.

(** [i] issued [c]: the names match and the signature verifies with the key of [i]. *)
Definition signed_by (E : env) (c i : cert) : Prop :=
  c_issuer c = c_subject i /\ e_load E i = Ok tt /\ e_hash E c = Ok tt /\ e_verify E i c = Ok tt.

(** Issuer and subject are the same name. *)
Definition same_names (c : cert) : Prop := c_issuer c = c_subject c.

(** [i] is the first issuer of [c] in the pool. *)
Definition first_issuer (E : env) (pool : list cert) (c i : cert) : Prop :=
  signed_by E c i /\
  exists before after, pool = before ++ i :: after /\ forall j, In j before -> ~ signed_by E c j.

Definition no_issuer (E : env) (pool : list cert) (c : cert) : Prop :=
  forall i, In i pool -> ~ signed_by E c i.

(** Every element is related to its successor. *)
Fixpoint consecutive {A} (R : A -> A -> Prop) (l : list A) : Prop :=
  match l with
  | a :: (b :: _) as t => R a b /\ consecutive R t
  | _ => True
  end.

(** Whether [i] issued [c] can be decided without an exception other than a
    failing signature check. *)
Definition checkable (E : env) (c i : cert) : Prop :=
  c_issuer c = c_subject i ->
  e_load E i = Ok tt /\ e_hash E c = Ok tt /\
  (e_verify E i c = Ok tt \/
   e_verify E i c = Err EInvalidSignature \/ e_verify E i c = Err EValueError \/ e_verify E i c = Err EBadSigAlgID).

(** Position [k] holds the first certificate with the subject and serial number of [c]. *)
Definition same_id (a b : cert) : Prop := c_name a = c_name b /\ c_serial a = c_serial b.

Definition at_position (extra : list cert) (c : cert) (k : nat) : Prop :=
  (exists x, nth_error extra k = Some x /\ same_id x c) /\
  forall j x, (j < k)%nat -> nth_error extra j = Some x -> ~ same_id x c.

(** An issuer directly follows its certificate, or comes earlier. *)
Definition follows (a b : nat) : Prop := b = (a + 1)%nat \/ (b < a)%nat.

(** [i] is the only issuer of [c] in the pool. *)
Definition only_issuer (E : env) (pool : list cert) (c i : cert) : Prop :=
  In i pool /\ signed_by E c i /\ forall j, In j pool -> signed_by E c j -> j = i.
