(** Statement vocabulary for extensions, cross-signed certificates and passwords (C162 to C164). *)
From Coq Require Import String.
From Verif Require Import Prelude GenModel XtsModel.
Open Scope string_scope.
Open Scope Z_scope.
Open Scope list_scope.
Local Notation length := List.length.

(** The first extension of a type in a list. *)
Definition first_of (l : list ext) (id : string) (e : ext) : Prop :=
  exists a b, l = a ++ e :: b /\ e_id e = id /\ forall x, In x a -> e_id x <> id.
Definition absent (l : list ext) (id : string) : Prop := forall x, In x l -> e_id x <> id.

(** The six types that are looked at, with the check for each. *)
Definition check_of (L : lib) (id : string) (f : bytes -> result (option ext)) : Prop :=
  (id = "id_ce_keyUsage" /\ f = l_usage L) \/ (id = "id_ce_subjectKeyIdentifier" /\ f = l_ski L) \/ (id = "id_ce_authorityKeyIdentifier" /\ f = l_aki L) \/
  (id = "id_ce_extKeyUsage" /\ f = l_eku L) \/ (id = "id_ce_basicConstraints" /\ f = l_basic L) \/ (id = "id_ce_subjectAltName" /\ f = l_san L).
Definition looked_at (id : string) : Prop :=
  In id ["id_ce_keyUsage"; "id_ce_subjectKeyIdentifier"; "id_ce_authorityKeyIdentifier"; "id_ce_extKeyUsage"; "id_ce_basicConstraints"; "id_ce_subjectAltName"].
(** Each check answers with an extension of its type. *)
Definition typed (L : lib) : Prop := forall id f t e, check_of L id f -> f t = Ok (Some e) -> e_id e = id.
(** The extensions of one type, in their order. *)
Definition of_type (id : string) (l : list ext) : list ext := filter (has_id id) l.

Definition others (o : option (list ext)) : list ext := match o with Some l => l | None => [] end.

Definition ca_flag (X : xlib) (c : cert) (b : bool) : Prop := x_basic X c = Ok (Some b).
(** The same with other answers about the field cA, the authority key identifiers, and the issuers. *)
Definition with_ca (X : xlib) (f : cert -> bool -> bool) : xlib :=
  {| x_basic := fun c => let! b := x_basic X c in Ok (match b with Some b => Some (f c b) | None => None end);
     x_subject := x_subject X; x_issuer := x_issuer X; x_same := x_same X; x_ski := x_ski X; x_aki := x_aki X; x_key := x_key X;
     x_verify := x_verify X; x_exts := x_exts X; x_fits := x_fits X |}.
Definition with_aki (X : xlib) (f : cert -> option bytes) : xlib :=
  {| x_basic := x_basic X; x_subject := x_subject X; x_issuer := x_issuer X; x_same := x_same X; x_ski := x_ski X;
     x_aki := fun c => let! _ := x_aki X c in Ok (f c); x_key := x_key X; x_verify := x_verify X; x_exts := x_exts X; x_fits := x_fits X |}.

Definition occurs_in (p s : string) : Prop := exists a b, s = (a ++ p ++ b)%string.
(** [r] is the password repeated up to the length [n]. *)
Definition repeated (pw r : bytes) (n : nat) : Prop :=
  length r = n /\ forall i, (i < n)%nat -> nth_error r i = nth_error pw (i mod length pw).
(** The size of a key, if it is fixed. *)
Inductive size_of (prot : string) (hash : option string) : Z -> Prop :=
| S_kmac128 : prot = "kmac" -> hash = Some "shake128" -> size_of prot hash 16
| S_kmac : prot = "kmac" -> hash <> Some "shake128" -> size_of prot hash 32
| S_128 : prot <> "kmac" -> occurs_in "gmac" prot -> occurs_in "128" prot -> size_of prot hash 16
| S_192 : prot <> "kmac" -> occurs_in "gmac" prot -> ~ occurs_in "128" prot -> occurs_in "192" prot -> size_of prot hash 24
| S_256 : prot <> "kmac" -> occurs_in "gmac" prot -> ~ occurs_in "128" prot -> ~ occurs_in "192" prot -> occurs_in "256" prot -> size_of prot hash 32.
Definition any_size (prot : string) : Prop := prot <> "kmac" /\ ~ occurs_in "gmac" prot.
