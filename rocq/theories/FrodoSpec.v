(** Vocabulary for the statements about FrodoKEM (C38, C39): matrices, the
    error distribution, and the noise of one key exchange. *)

From Coq Require Import ZArith List Bool Lia.
From Verif Require Import Prelude FrodoModel.
Import ListNotations.
Open Scope Z_scope.

(** [M] has [n1] rows of [n2] entries. *)
Definition is_mat (n1 n2 : nat) (M : matrix) : Prop :=
  length M = n1 /\ forall r, In r M -> length r = n2.

(** Every entry of [M] satisfies [Q]. *)
Definition entries (Q : Z -> Prop) (M : matrix) : Prop :=
  forall r x, In r M -> In x r -> Q x.

(** Sum of [f 0], ..., [f (n-1)]. *)
Fixpoint sigma (n : nat) (f : nat -> Z) : Z :=
  match n with O => 0 | S m => sigma m f + f m end.

(** The two SHAKE functions return as many bytes as asked for; AES returns a block. *)
Definition good_lib (L : flib) : Prop :=
  (forall m k, length (f_shake128 L m k) = k /\ is_bytes (f_shake128 L m k) = true) /\
  (forall m k, length (f_shake256 L m k) = k /\ is_bytes (f_shake256 L m k) = true) /\
  (forall key m, length (f_aes128 L key m) = 16%nat /\ is_bytes (f_aes128 L key m) = true).

(** Number of the [2^15] values of [t] whose magnitude is at most [m]: half of
    the weight of zero, plus the weights of [1, ..., m] (FrodoKEM specification
    2.2.4; the table counts multiples of [2^-16] and the weight of zero is
    shared by both signs). *)
Definition weight_upto (chi : list Z) (m : nat) : Z :=
  nth 0 chi 0 / 2 + sigma m (fun i => nth (S i) chi 0).

(** [e] is the value the distribution [chi] gives the 16-bit integer [r]: its
    sign is the lowest bit, its magnitude [m] is the class the 15 remaining
    bits fall into. *)
Definition drawn (chi : list Z) (r e : Z) : Prop :=
  exists m : nat,
    (m < length chi)%nat /\
    e = (if Z.odd r then - Z.of_nat m else Z.of_nat m) /\
    (m = O \/ weight_upto chi (m - 1) <= r / 2) /\
    r / 2 < weight_upto chi m.

(** The magnitude class of [t], computed: how many classes lie entirely below [t]. *)
Definition noise_of (chi : list Z) (r : Z) : Z :=
  let m := Z.of_nat (length (filter (fun m => weight_upto chi m <=? r / 2)
                               (seq 0 (length chi - 1)))) in
  if Z.odd r then - m else m.

(** The [i]-th 16-bit little-endian integer in [b]. *)
Definition word16 (b : bytes) (i : nat) : Z := nth (2 * i) b 0 + 256 * nth (2 * i + 1) b 0.

(** SHAKE as the parameter set selects it. *)
Definition xof (L : flib) (v : size) : bytes -> nat -> bytes :=
  match v with S640 => f_shake128 L | _ => f_shake256 L end.

(** Dimension [n]; [D] bits per entry; [B] message bits per entry. *)
Definition dim (v : size) : nat := match v with S640 => 640 | S976 => 976 | S1344 => 1344 end.
Definition dbits (v : size) : nat := match v with S640 => 15 | _ => 16 end.
Definition mbits (v : size) : nat := match v with S640 => 2 | S976 => 3 | S1344 => 4 end.
(** Length in bytes of [mu], [s], [k], [pkh] and the shared secret. *)
Definition seclen (v : size) : nat := match v with S640 => 16 | S976 => 24 | S1344 => 32 end.
(** Length in bytes of [seedSE] and of the salt. *)
Definition saltlen (v : size) : nat := match v with S640 => 32 | S976 => 48 | S1344 => 64 end.
(** The error distribution (FrodoKEM specification, Table 3). *)
Definition chi_of (v : size) : list Z :=
  match v with
  | S640 => [9288; 8720; 7216; 5264; 3384; 1918; 958; 422; 164; 56; 17; 4; 1]
  | S976 => [11278; 10277; 7774; 4882; 2545; 1101; 396; 118; 29; 6; 1]
  | S1344 => [18286; 14320; 6876; 2023; 364; 40; 2]
  end.
Definition modulus (v : size) : Z := 2 ^ Z.of_nat (dbits v).
(** Bytes in a seed [s || seedSE || z], a public key and a ciphertext. *)
Definition seedlen (v : size) : nat := (seclen v + saltlen v + 16)%nat.
Definition pklen (v : size) : nat := (16 + dbits v * dim v)%nat.
Definition ctlen (v : size) : nat := (dbits v * dim v + dbits v * 8 + saltlen v)%nat.
Definition sklen (v : size) : nat := (seclen v + pklen v + 2 * (8 * dim v) + seclen v)%nat.

(** The secret and the error of a key pair made from [seed]: [n x 8] matrices. *)
Definition key_stream (L : flib) (v : size) (seed : bytes) : bytes :=
  xof L v (95 :: firstn (saltlen v) (skipn (seclen v) seed)) (2 * dim v * 8 * 2).
Definition key_S (L : flib) (v : size) (seed : bytes) (i j : nat) : Z :=
  noise_of (chi_of v) (word16 (key_stream L v seed) (j * dim v + i)).
Definition key_E (L : flib) (v : size) (seed : bytes) (i j : nat) : Z :=
  noise_of (chi_of v) (word16 (key_stream L v seed) (dim v * 8 + i * 8 + j)).

(** [seedSE || k] of an encapsulation of [mu], [salt] under [pk], and the
    three error matrices drawn from it: [8 x n], [8 x n] and [8 x 8]. *)
Definition seedSE_k (L : flib) (v : size) (pk mu salt : bytes) : bytes :=
  xof L v (xof L v pk (seclen v) ++ mu ++ salt) (saltlen v + seclen v).
Definition enc_stream (L : flib) (v : size) (pk mu salt : bytes) : bytes :=
  xof L v (150 :: firstn (saltlen v) (seedSE_k L v pk mu salt)) ((2 * 8 * dim v + 8 * 8) * 2).
Definition enc_S (L : flib) (v : size) (pk mu salt : bytes) (i j : nat) : Z :=
  noise_of (chi_of v) (word16 (enc_stream L v pk mu salt) (i * dim v + j)).
Definition enc_E (L : flib) (v : size) (pk mu salt : bytes) (i j : nat) : Z :=
  noise_of (chi_of v) (word16 (enc_stream L v pk mu salt) (8 * dim v + i * dim v + j)).
Definition enc_E2 (L : flib) (v : size) (pk mu salt : bytes) (i j : nat) : Z :=
  noise_of (chi_of v) (word16 (enc_stream L v pk mu salt) (2 * 8 * dim v + i * 8 + j)).

(** What the decryption noise of that exchange is at entry [i, j]:
    [S'E + E'' - E'S]. *)
Definition exchange_noise (L : flib) (v : size) (seed pk mu salt : bytes) (i j : nat) : Z :=
  sigma (dim v) (fun k => enc_S L v pk mu salt i k * key_E L v seed k j)
  + enc_E2 L v pk mu salt i j
  - sigma (dim v) (fun k => enc_E L v pk mu salt i k * key_S L v seed k j).

(** The decoding threshold: [-q / 2^(B+1) <= x < q / 2^(B+1)]. *)
Definition below_threshold (v : size) (x : Z) : Prop :=
  - modulus v <= x * 2 ^ (Z.of_nat (mbits v) + 1) < modulus v.

(** No decryption failure in that exchange. *)
Definition no_failure (L : flib) (v : size) (seed pk mu salt : bytes) : Prop :=
  forall i j : nat, (i < 8)%nat -> (j < 8)%nat ->
    below_threshold v (exchange_noise L v seed pk mu salt i j).

(** Bit [x] of a byte string, least significant bit of each byte first. *)
Definition lsb_bit (k : bytes) (x : nat) : bool :=
  Z.testbit (nth (x / 8) k 0) (Z.of_nat (x mod 8)).

(** Bit [x] of a byte string, most significant bit of each byte first. *)
Definition msb_bit (k : bytes) (x : nat) : bool :=
  Z.testbit (nth (x / 8) k 0) (Z.of_nat (7 - x mod 8)).

(** The [x]-th [w]-bit number of a byte string read most significant bit first. *)
Definition number_at (w : nat) (b : bytes) (x : nat) : Z :=
  sigma w (fun l => if msb_bit b (x * w + l) then 2 ^ Z.of_nat (w - 1 - l) else 0).

(** [mu] is what the ciphertext [ct] decrypts to under the secret [T]: the
    [B]-bit group number [8i+j] of [mu] is [C - B'T] at [i, j], scaled by
    [2^B/q] and rounded to the nearest integer, halves upwards. *)
Definition decrypts_to (v : size) (T : nat -> nat -> Z) (ct mu : bytes) : Prop :=
  length mu = seclen v /\ is_bytes mu = true /\
  forall i j l : nat, (i < 8)%nat -> (j < 8)%nat -> (l < mbits v)%nat ->
    let w := dbits v in
    let b' := fun k => number_at w ct (i * dim v + k) in
    let c := number_at w (skipn (w * dim v) ct) (i * 8 + j) in
    let m := (c - sigma (dim v) (fun k => b' k * T k j)) mod modulus v in
    lsb_bit mu ((i * 8 + j) * mbits v + l) =
    Z.testbit ((2 * (m * 2 ^ Z.of_nat (mbits v)) + modulus v) / (2 * modulus v)) (Z.of_nat l).

(** The secret matrix read back from the bytes a secret key stores it in:
    16-bit two's complement, little endian, column by column. *)
Definition stored_S (v : size) (b : bytes) (i j : nat) : Z :=
  let x := word16 b (j * dim v + i) in if x <? 32768 then x else x - 65536.

(** A 16-bit integer in little-endian byte order. *)
Definition two_bytes (i : nat) : bytes := [Z.of_nat i mod 256; Z.of_nat i / 256].

(** The public matrix [A] a 16-byte seed expands to (FrodoKEM specification,
    Algorithms 7 and 8). *)
Definition pub_A (L : flib) (v : size) (aes : bool) (seedA : bytes) (i j : nat) : Z :=
  (if aes
   then word16 (f_aes128 L seedA (two_bytes i ++ two_bytes (8 * (j / 8)) ++ repeat 0 12)) (j mod 8)
   else word16 (f_shake128 L (two_bytes i ++ seedA) (2 * dim v)) j) mod modulus v.

(** The value of the [x]-th group of [w] bits, least significant bit first. *)
Definition group_at (w : nat) (k : bytes) (x : nat) : Z :=
  sigma w (fun l => if lsb_bit k (x * w + l) then 2 ^ Z.of_nat l else 0).
