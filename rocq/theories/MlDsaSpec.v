(** Specification vocabulary for the ML-DSA properties (C28-C33): hints, centred
    residues, FIPS 204 in the coefficient ring Z_q[X]/(X^256+1) without
    transforms, and what a hash function has to guarantee. *)
From Verif Require Export LatSpec.
From Verif Require Import MlDsaModel.
Local Open Scope Z_scope.

(** Number of nonzero entries of a matrix. *)
Definition nonzeros (h : list (list Z)) : nat := length (filter (fun x => negb (x =? 0)) (concat h)).

(** A hint: [k] rows of 256 bits with at most [omega] ones. *)
Definition is_hint (k omega : nat) (h : list (list Z)) : Prop :=
  length h = k /\ Forall (fun r => length r = 256%nat /\ Forall (fun x => x = 0 \/ x = 1) r) h /\
  (nonzeros h <= omega)%nat.

(** [r] is the residue m mod+- a: congruent to [m] and in ]-a/2, a/2]. *)
Definition centred_residue (a m r : Z) : Prop := (exists t, m = r + t * a) /\ - a < 2 * r <= a.

(** The magnitude of a coefficient modulo [q] is at most [b]. *)
Definition small (q b x : Z) : Prop := exists r, centred_residue q x r /\ Z.abs r <= b.

(** * The ring Z_q[X]/(X^256+1), q = 8380417 *)
Definition radd (f g : list Z) : list Z := map (fun c => (coeff c f + coeff c g) mod 8380417) (seq 0 256).
Definition rsub (f g : list Z) : list Z := map (fun c => (coeff c f - coeff c g) mod 8380417) (seq 0 256).
Definition rmul (f g : list Z) : list Z := ring_mul 8380417 256 f g.
Fixpoint rsum (n : nat) (f : nat -> list Z) : list Z :=
  match n with O => repeat 0 256 | S n' => radd (rsum n' f) (f n') end.

(** What the hash functions guarantee: as many bytes as asked for. *)
Definition hash_lengths (hs : hashes) : Prop :=
  (forall x n, length (shake256 hs x n) = n /\ is_bytes (shake256 hs x n) = true) /\
  (forall x, is_bytes (xof128 hs x) = true) /\ (forall x, is_bytes (xof256 hs x) = true).

(** Entry (i,j) of the public matrix A that belongs to the seed [rho]. *)
Definition A (hs : hashes) (rho : bytes) (i j : nat) : list Z :=
  match rej_ntt_poly (xof128 hs (rho ++ [Z.of_nat j] ++ [Z.of_nat i])) with
  | Ok f => ntt_inverse f
  | Err _ => repeat 0 256
  end.

(** FIPS 204 verification, in the coefficient ring: the signature [sg] of the formatted
    message [mp] is accepted under [pk] when its parts ct, z, h satisfy ||z|| < gamma1 - beta and
    ct = H(mu || w1Encode(UseHint(h, A z - c t1 2^d))). *)
Definition accepts (hs : hashes) (p : params) (pk mp sg : bytes) : Prop :=
  exists rho t1 ct z h c w1t,
    pk_decode p pk = Ok (rho, t1) /\ sig_decode p sg = Ok (ct, z, Some h) /\
    sample_in_ball p (xof256 hs ct) = Ok c /\
    (forall f x, In f z -> In x f -> Z.abs x < gam1 p - beta p) /\
    w1_encode p (use_hint p h (map (fun i =>
        rsub (rsum (ell p) (fun j => rmul (A hs rho i j) (nth j z [])))
             (rmul c (map (fun x => x * 2 ^ Z.of_nat (d p)) (nth i t1 [])))) (seq 0 (k p)))) = Ok w1t /\
    ct = shake256 hs (shake256 hs (shake256 hs pk 64 ++ mp) 64 ++ w1t) (Nat.div (lam p) 4).
