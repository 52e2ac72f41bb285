(** Definitions shared by the models of the lattice schemes
    (pq_logic/fips/fips203.py, fips204.py): reading and writing list cells,
    bit strings, and the loop structure of the in-place number theoretic
    transforms.

    Simplification used throughout: Python's [l[j]] on an index outside the list
    raises IndexError; [nthz] returns 0 there.  Wherever the list comes from the
    caller (byte strings) the length is checked and EIndexError is produced;
    inside the arithmetic all lists have 256 elements, which the [*_length]
    lemmas of the proof files establish for every reachable call. *)
From Verif Require Export Prelude.
Local Open Scope Z_scope.

(** Python [l[j]]. *)
Definition nthz (j : nat) (l : list Z) : Z := nth j l 0.

(** Python [l[j] = x]. *)
Fixpoint upd (l : list Z) (j : nat) (x : Z) : list Z :=
  match l, j with
  | [], _ => []
  | _ :: r, O => x :: r
  | y :: r, S j' => y :: upd r j' x
  end.

(** The low [d] bits of [a], least significant first: the inner loop of
    pq_logic/fips/fips203.py 379-396 (ML_KEM.byte_encode) ([a % 2; a //= 2]) and
    pq_logic/fips/fips204.py 669-674 (ML_DSA.integer_to_bits) ([x & 1; x >>= 1]). *)
Fixpoint bits_of (d : nat) (a : Z) : list Z :=
  match d with O => [] | S d' => a mod 2 :: bits_of d' (a / 2) end.

(** The integer with the given bits, least significant first: the inner loop of
    pq_logic/fips/fips203.py 400-412 (ML_KEM.byte_decode) ([x += b[..] << j]) and
    pq_logic/fips/fips204.py 678-682 (ML_DSA.bits_to_integer) (Horner from the top). *)
Fixpoint from_bits (l : list Z) : Z :=
  match l with [] => 0 | b :: r => b + 2 * from_bits r end.

(** pq_logic/fips/fips203.py 356-364 (ML_KEM.bits_to_bytes) and
    pq_logic/fips/fips204.py 695-703 (ML_DSA.bits_to_bytes): a length that is no multiple of
    eight ends in an IndexError, a value above 255 in the ValueError of the
    bytearray store.  The loop over [i] is the recursion over groups of eight. *)
Fixpoint bits_to_bytes (b : list Z) : result bytes :=
  match b with
  | [] => Ok []
  | b0 :: b1 :: b2 :: b3 :: b4 :: b5 :: b6 :: b7 :: r =>
      let x := from_bits [b0; b1; b2; b3; b4; b5; b6; b7] in
      if is_byte x then let! a := bits_to_bytes r in Ok (x :: a) else Err EValueError
  | _ => Err EIndexError
  end.

(** pq_logic/fips/fips203.py 368-375 (ML_KEM.bytes_to_bits) and
    pq_logic/fips/fips204.py 707-714 (ML_DSA.bytes_to_bits). *)
Definition bytes_to_bits (b : bytes) : list Z := flat_map (bits_of 8) b.

(** [n] consecutive groups of [d] elements: the indices [i*d+j] (fips203
    byte_decode 407-411) or slices [z[i*c:(i+1)*c]] (fips204 lines 760-762,
    770-772) read for [i < n]; too short an input is an IndexError in both. *)
Fixpoint chunks (n d : nat) (l : list Z) : result (list (list Z)) :=
  match n with
  | O => Ok []
  | S n' =>
      let c := firstn d l in
      if (length c <? d)%nat then Err EIndexError
      else let! r := chunks n' d (skipn d l) in Ok (c :: r)
  end.

(** The first [n] elements, IndexError when there are fewer ([for i in
    range(n): ... f[i]]). *)
Definition take_exact (n : nat) (l : list Z) : result (list Z) :=
  if (length l <? n)%nat then Err EIndexError else Ok (firstn n l).

(** Loop structure of the in-place transforms (fips203 ntt / ntt_inverse lines
    448-479, fips204 ntt / ntt_inverse lines 1089-1131): for each layer width
    [le], for each block start [st] (0, 2le, 4le, ...), one table index, then the
    butterflies [step i le j] for [j] in [st, st+le). [next] is the move of the
    table index after a block (up in the transform, down in the inverse). *)
Definition block (step : nat -> list Z -> list Z) (st le : nat) (f : list Z) : list Z :=
  fold_left (fun f j => step j f) (seq st le) f.

Fixpoint blocks (step : nat -> nat -> nat -> list Z -> list Z) (next : nat -> nat)
         (n : nat) (st le i : nat) (f : list Z) : list Z * nat :=
  match n with
  | O => (f, i)
  | S n' => blocks step next n' (st + 2 * le) le (next i) (block (step i le) st le f)
  end.

Fixpoint layers (step : nat -> nat -> nat -> list Z -> list Z) (next : nat -> nat)
         (les : list nat) (i : nat) (f : list Z) : list Z :=
  match les with
  | [] => f
  | le :: r =>
      let '(f', i') := blocks step next (Nat.div 256 (2 * le)) 0 le i f in
      layers step next r i' f'
  end.

(** [mapM f l]: a list comprehension whose body may raise. *)
Fixpoint mapM {A B} (f : A -> result B) (l : list A) : result (list B) :=
  match l with
  | [] => Ok []
  | x :: r => let! y := f x in let! ys := mapM f r in Ok (y :: ys)
  end.
