(** Specification vocabulary of the lattice schemes, independent of the code:
    the polynomial ring Z_q[X]/(X^n + 1) in the coefficient representation. *)
From Coq Require Import List ZArith.
Import ListNotations.
Local Open Scope Z_scope.

(** [f 0 + ... + f (n-1)]. *)
Fixpoint zsum (n : nat) (f : nat -> Z) : Z :=
  match n with O => 0 | S n' => zsum n' f + f n' end.

(** Coefficient [c] of a polynomial given by its coefficient list. *)
Definition coeff (c : nat) (f : list Z) : Z := nth c f 0.

(** A polynomial of the ring: [n] coefficients in [0,q). *)
Definition poly (q : Z) (n : nat) (f : list Z) : Prop :=
  length f = n /\ Forall (fun x => 0 <= x < q) f.

(** Product in Z_q[X]/(X^n + 1): X^i * X^j is X^(i+j), and X^n is -1. *)
Definition ring_mul (q : Z) (n : nat) (f g : list Z) : list Z :=
  map (fun c => zsum n (fun i => coeff i f *
                  (if (i <=? c)%nat then coeff (c - i) g else - coeff (n + c - i) g)) mod q)
      (seq 0 n).

(** [x] and [y] differ modulo [q] by at most [b] in absolute value. *)
Definition near (q b x y : Z) : Prop := exists t e, x = y + e + t * q /\ Z.abs e <= b.
