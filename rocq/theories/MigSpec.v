(** Statement vocabulary for chains of a migration (C135), of Sun hybrid certificates (C136) and for kinds (C137). *)
From Coq Require Import String.
From Verif Require Import Prelude CertChainModel MigModel.
Open Scope string_scope.
Open Scope Z_scope.
Open Scope list_scope.

(** [x] has the name of the issuer of [c], and its key verifies [c]. *)
Definition signed (L : lib) (c x : cert) : Prop := c_issuer c = c_subject x /\ l_verify L x c = Ok tt.
(** [x] has another name, or its key is found not to verify [c]. *)
Definition not_signed (L : lib) (c x : cert) : Prop :=
  c_issuer c <> c_subject x \/ exists e, l_verify L x c = Err e /\ In e [EValueError; EUnicode; EInvalidSignature; EInvalidAltSignature; EBadSigAlgID].
Definition own_issuer (c : cert) : Prop := c_issuer c = c_subject c.
(** Each is in the relation to the next. *)
Fixpoint linked (R : cert -> cert -> Prop) (l : list cert) : Prop :=
  match l with
  | a :: (b :: _) as r => R a b /\ linked R r
  | _ => True
  end.
(** The first list is what remains of the second after leaving out some. *)
Inductive subseq : list cert -> list cert -> Prop :=
  | sub_nil l : subseq [] l
  | sub_take x l m : subseq l m -> subseq (x :: l) (x :: m)
  | sub_skip x l m : subseq l m -> subseq l (x :: m).
(** It is known for every certificate of the list whether it signed [c]. *)
Definition decided (L : lib) (c : cert) (pool : list cert) : Prop := forall x, In x pool -> signed L c x \/ not_signed L c x.
(** [y] follows [x] in the list. *)
Definition next (l : list cert) (x y : cert) : Prop := exists p q, l = p ++ x :: y :: q.
