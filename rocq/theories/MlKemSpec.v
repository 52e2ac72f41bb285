(** Specification vocabulary for the ML-KEM properties (C21-C27): FIPS 203 in
    the coefficient ring Z_q[X]/(X^256+1), without transforms, and what a hash
    function has to guarantee. *)
From Verif Require Export LatSpec.
From Verif Require Import MlKemModel.
Local Open Scope Z_scope.

(** The 12-bit candidates contained in a byte stream (FIPS 203, Algorithm 7)
    and those below [q]. *)
Fixpoint candidates (s : bytes) : list Z :=
  match s with
  | c0 :: c1 :: c2 :: s' => (c0 + 256 * (c1 mod 16)) :: (c1 / 16 + 16 * c2) :: candidates s'
  | _ => []
  end.
Definition accepted_candidates (q : Z) (s : bytes) : list Z := filter (fun x => x <? q) (candidates s).

(** Output lengths of the hash functions. *)
Definition hash_lengths (hs : hashes) : Prop :=
  (forall x, length (sha3_256 hs x) = 32%nat) /\ (forall x, length (sha3_512 hs x) = 64%nat) /\
  (forall x, is_bytes (xof128 hs x) = true).

(** Ring arithmetic on coefficient lists. *)
Definition radd (f g : list Z) : list Z := map (fun c => (coeff c f + coeff c g) mod 3329) (seq 0 256).
Definition rmul (f g : list Z) : list Z := ring_mul 3329 256 f g.
Fixpoint rsum (n : nat) (f : nat -> list Z) : list Z :=
  match n with O => repeat 0 256 | S n' => radd (rsum n' f) (f n') end.

Section Noise.
Variable hs : hashes.
Variable p : params.
Variables rho sigma r m : bytes.

(** The polynomial [A_ij] whose transform is sampled from the public seed. *)
Definition A (i j : nat) : list Z :=
  match sample_ntt (xof128 hs (rho ++ [Z.of_nat j; Z.of_nat i])) with
  | Ok f => ntt_inverse f
  | Err _ => zero_poly
  end.
(** Secrets of the key pair, and of the encryption of [m] under coins [r]. *)
Definition key_s (i : nat) : list Z := sample_poly_cbd (eta1 p) (shake256 hs (sigma ++ [Z.of_nat i]) (64 * eta1 p)).
Definition key_e (i : nat) : list Z := sample_poly_cbd (eta1 p) (shake256 hs (sigma ++ [Z.of_nat (k p + i)]) (64 * eta1 p)).
Definition enc_y (i : nat) : list Z := sample_poly_cbd (eta1 p) (shake256 hs (r ++ [Z.of_nat i]) (64 * eta1 p)).
Definition enc_e1 (i : nat) : list Z := sample_poly_cbd (eta2 p) (shake256 hs (r ++ [Z.of_nat (k p + i)]) (64 * eta2 p)).
Definition enc_e2 : list Z := sample_poly_cbd (eta2 p) (shake256 hs (r ++ [Z.of_nat (k p + k p)]) (64 * eta2 p)).

(** Bit [c] of the message and its embedding. *)
Definition msg_bit (c : nat) : Z := (nth (Nat.div c 8) m 0 / 2 ^ Z.of_nat (Nat.modulo c 8)) mod 2.
Definition mu : list Z := map (fun c => msg_bit c * 1665) (seq 0 256).

(** Public vector t = A s + e, ciphertext u = A^T y + e1, v = t^T y + e2 + mu. *)
Definition key_t (i : nat) : list Z := radd (key_e i) (rsum (k p) (fun j => rmul (A i j) (key_s j))).
Definition enc_u (i : nat) : list Z := radd (rsum (k p) (fun j => rmul (A j i) (enc_y j))) (enc_e1 i).
Definition enc_v : list Z := radd (radd (rsum (k p) (fun i => rmul (key_t i) (enc_y i))) enc_e2) mu.

(** Compression errors of the ciphertext. *)
Definition comp_err (d : nat) (f : list Z) : list Z :=
  map (fun c => decompress1 d (compress1 d (coeff c f)) - coeff c f) (seq 0 256).
Definition err_u (i : nat) : list Z := comp_err (du p) (enc_u i).
Definition err_v : list Z := comp_err (dv p) enc_v.

(** Decryption noise  e^T y + e2 + err_v - s^T (e1 + err_u). *)
Definition rsub (f g : list Z) : list Z := map (fun c => (coeff c f - coeff c g) mod 3329) (seq 0 256).
Definition noise : list Z :=
  rsub (radd (radd (rsum (k p) (fun i => rmul (key_e i) (enc_y i))) enc_e2) err_v)
       (rsum (k p) (fun i => rmul (key_s i) (radd (enc_e1 i) (err_u i)))).

(** No decryption failure: every noise coefficient is within a quarter of [q]. *)
Definition no_failure : Prop :=
  forall c, (c < 256)%nat -> exists n t, coeff c noise = n + t * 3329 /\ -832 <= n <= 831.
End Noise.
