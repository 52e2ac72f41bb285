(** Model of the FrodoKEM implementation of the suite.

    Models /repo/pq_logic/fips/frodokem.py (class [FrodoKEM]).  Matrices are
    lists of rows of integers.  SHAKE-128, SHAKE-256 and one-block AES-128 are
    the fields of the record [flib].  Random bytes are arguments.  Reading
    [M[i][j]] is [at_ M i j], with 0 outside the matrix: the code only reads
    inside once the assertions and the bounds checks below have passed. *)

From Coq Require Import ZArith List Bool Lia.
From Verif Require Import Prelude.
Import ListNotations.
Open Scope Z_scope.

(** Models pq_logic/fips/frodokem.py 54-169: the attributes set by
    [setParamsFrodo640], [setParamsFrodo976] and [setParamsFrodo1344].
    Simplified: lengths given in bits are kept in bytes; [len_chi] is 16 bits
    everywhere. *)
Record params := mk_params {
  p_chi : list Z;
  p_D : nat; p_q : Z; p_n : nat; p_nbar : nat; p_mbar : nat; p_B : nat;
  p_seedA : nat; p_z : nat; p_mu : nat; p_seedSE : nat; p_salt : nat;
  p_s : nat; p_k : nat; p_pkh : nat; p_ss : nat;
  p_shake256 : bool;
  p_sk : Z; p_pk : Z; p_ct : Z }.

(** Models pq_logic/fips/frodokem.py 54-91. *)
Definition params640 : params :=
  mk_params [9288; 8720; 7216; 5264; 3384; 1918; 958; 422; 164; 56; 17; 4; 1]
    15 32768 640 8 8 2  16 16 16 32 32 16 16 16 16  false  19888 9616 9752.

(** Models pq_logic/fips/frodokem.py 93-130. *)
Definition params976 : params :=
  mk_params [11278; 10277; 7774; 4882; 2545; 1101; 396; 118; 29; 6; 1]
    16 65536 976 8 8 3  16 16 24 48 48 24 24 24 24  true  31296 15632 15792.

(** Models pq_logic/fips/frodokem.py 132-169. *)
Definition params1344 : params :=
  mk_params [18286; 14320; 6876; 2023; 364; 40; 2]
    16 65536 1344 8 8 4  16 16 32 64 64 32 32 32 32  true  43088 21520 21696.

(** The sizes of the six variants named at pq_logic/fips/frodokem.py 33-52. *)
Inductive size := S640 | S976 | S1344.

(** Models pq_logic/fips/frodokem.py 33-52: the parameters a variant name selects. *)
Definition params_of (v : size) : params :=
  match v with S640 => params640 | S976 => params976 | S1344 => params1344 end.

(** The primitives called at pq_logic/fips/frodokem.py 190-213. *)
Record flib := mk_flib {
  f_shake128 : bytes -> nat -> bytes;
  f_shake256 : bytes -> nat -> bytes;
  f_aes128 : bytes -> bytes -> bytes }.

(** A matrix of integers, as the list of rows used throughout pq_logic/fips/frodokem.py. *)
Definition matrix := list (list Z).

(** [[f(i, j) for j in range(n2)] for i in range(n1)], the way matrices are
    built throughout pq_logic/fips/frodokem.py (for instance line 248). *)
Definition build (n1 n2 : nat) (f : nat -> nat -> Z) : matrix :=
  map (fun i => map (fun j => f i j) (seq 0 n2)) (seq 0 n1).

(** [M[i][j]] in pq_logic/fips/frodokem.py. *)
Definition at_ (M : matrix) (i j : nat) : Z := nth j (nth i M []) 0.

(** [sum(f(k) for k in range(n))], the accumulation loop at
    pq_logic/fips/frodokem.py 236-237. *)
Definition sum_range (n : nat) (f : nat -> Z) : Z :=
  fold_left (fun acc k => acc + f k) (seq 0 n) 0.

(** Models pq_logic/fips/frodokem.py 215-224: [__cdf_zero_centred_symmetric]. *)
Definition cdf_zero_centred_symmetric (chi : list Z) : list Z :=
  let t0 := nth 0 chi 0 / 2 - 1 in
  map (fun z => t0 + fold_left Z.add (slice 1 (z + 1) chi) 0) (seq 0 (length chi)).

Section Frodo.

Variable L : flib.
Variable P : params.
(** [self.gen] is [genAES128] for the AES variants, [genSHAKE128] otherwise
    (pq_logic/fips/frodokem.py 33-50). *)
Variable aes : bool.

Local Notation D := (p_D P).
Local Notation q := (p_q P).
Local Notation n := (p_n P).
Local Notation nbar := (p_nbar P).
Local Notation mbar := (p_mbar P).
Local Notation B := (p_B P).

(** [self.shake] as chosen at pq_logic/fips/frodokem.py 86, 125 and 164. *)
Definition shake (msg : bytes) (len : nat) : bytes :=
  if p_shake256 P then f_shake256 L msg len else f_shake128 L msg len.

(** Number of columns, [len(X[0])], as at pq_logic/fips/frodokem.py 229;
    an empty matrix has no first row (IndexError). *)
Definition ncols (X : matrix) : result nat :=
  match X with [] => Err EIndexError | r :: _ => Ok (length r) end.

(** Models pq_logic/fips/frodokem.py 226-239: [__matrix_mul]. *)
Definition matrix_mul (X Y : matrix) : result matrix :=
  let! cx := ncols X in
  let! cy := ncols Y in
  let! _ := guard (Nat.eqb cx (length Y)) EAssertion in
  Ok (build (length X) cy (fun i j => sum_range cx (fun k => at_ X i k * at_ Y k j) mod q)).

(** Models pq_logic/fips/frodokem.py 241-248: [__matrix_add]. *)
Definition matrix_add (X Y : matrix) : result matrix :=
  let! cx := ncols X in
  let! cy := ncols Y in
  let! _ := guard (Nat.eqb cx cy && Nat.eqb (length X) (length Y)) EAssertion in
  Ok (build (length X) cx (fun i j => (at_ X i j + at_ Y i j) mod q)).

(** Models pq_logic/fips/frodokem.py 250-257: [__matrix_sub]. *)
Definition matrix_sub (X Y : matrix) : result matrix :=
  let! cx := ncols X in
  let! cy := ncols Y in
  let! _ := guard (Nat.eqb cx cy && Nat.eqb (length X) (length Y)) EAssertion in
  Ok (build (length X) cx (fun i j => (at_ X i j - at_ Y i j) mod q)).

(** Models pq_logic/fips/frodokem.py 259-263: [__matrix_transpose]. *)
Definition matrix_transpose (X : matrix) : result matrix :=
  let! c := ncols X in
  Ok (build c (length X) (fun i j => at_ X j i)).

(** Models pq_logic/fips/frodokem.py 265-273: bit [x] of [__bytes_to_bit_array(k)]. *)
Definition le_bit (k : bytes) (x : nat) : bool :=
  Z.testbit (nth (x / 8) k 0) (Z.of_nat (x mod 8)).

(** Models pq_logic/fips/frodokem.py 275-287: [__ctverify]. *)
Definition ctverify (a b : matrix) : bool :=
  fold_left (fun acc i =>
    fold_left (fun acc' j => Z.lor acc' (Z.lxor (at_ a i j) (at_ b i j)))
      (seq 0 (length (nth i a []))) acc) (seq 0 (length a)) 0 =? 0.

(** Models pq_logic/fips/frodokem.py 289-298: [__ctselect]; the mask has the
    selector in each of its eight bits. *)
Definition ctselect (a b : bytes) (selector : bool) : bytes :=
  let sel := if selector then 1 else 0 in
  let mask := fold_left (fun m i => Z.lor m (Z.shiftl sel (Z.of_nat i))) (seq 0 8) 0 in
  map (fun i => Z.lor (Z.land (nth i a 0) mask) (Z.land (nth i b 0) (Z.lnot mask)))
      (seq 0 (length a)).

(** Models pq_logic/fips/frodokem.py 300-316: [encode]. Reading a bit that is
    not there is an IndexError. *)
Definition encode (k : bytes) : result matrix :=
  let! _ := guard (B * mbar * nbar <=? 8 * length k)%nat EIndexError in
  Ok (build mbar nbar (fun i j =>
        sum_range B (fun l => if le_bit k ((i * nbar + j) * B + l) then 2 ^ Z.of_nat l else 0)
        * (q / 2 ^ Z.of_nat B))).

(** Models pq_logic/fips/frodokem.py 344: [floor(K * 2^B / q + 0.5) mod 2^B].
    Simplified: the division and the addition are exact rationals.  The code
    uses floating point, which is exact here because [q] is a power of two
    and the entries passed by the KEM are below [q]. *)
Definition dc (x : Z) : Z :=
  ((2 * (x * 2 ^ Z.of_nat B) + q) / (2 * q)) mod 2 ^ Z.of_nat B.

(** Models pq_logic/fips/frodokem.py 318-325: [__bit_array_to_bytes]; [b x] is bit [x]. *)
Definition bytes_of_le_bits (len : nat) (b : nat -> bool) : bytes :=
  map (fun i => sum_range 8 (fun l => if b (8 * i + l)%nat then 2 ^ Z.of_nat l else 0))
      (seq 0 (len / 8)).

(** Models pq_logic/fips/frodokem.py 327-356: [decode]; bit
    [(i*nbar+j)*B+l] of the result is bit [l] of the rounded entry [i, j]. *)
Definition decode (K : matrix) : result bytes :=
  let! c := ncols K in
  let! _ := guard ((mbar <=? length K) && (nbar <=? c))%nat EIndexError in
  Ok (bytes_of_le_bits (B * mbar * nbar) (fun x =>
        let e := (x / B)%nat in
        Z.testbit (dc (at_ K (e / nbar) (e mod nbar))) (Z.of_nat (x mod B)))).

(** Models pq_logic/fips/frodokem.py 370-377: the [D] low bits of an entry,
    most significant first. *)
Definition entry_bits (c : Z) : list bool :=
  map (fun l => Z.testbit c (Z.of_nat (D - 1 - l))) (seq 0 D).

(** Bits to bytes, first bit most significant: [BitArray.bytes], called at
    pq_logic/fips/frodokem.py 378. *)
Definition bytes_of_be_bits (b : list bool) : bytes :=
  map (fun i => sum_range 8 (fun l => if nth (8 * i + l) b false then 2 ^ Z.of_nat (7 - l) else 0))
      (seq 0 (length b / 8)).

(** Models pq_logic/fips/frodokem.py 358-378: [pack]. Positions
    [(i*n2+j)*D+l] are filled in increasing order, which is concatenation.
    [.bytes] refuses a length that is no multiple of eight. *)
Definition pack (C : matrix) : result bytes :=
  let! n2 := ncols C in
  let! _ := guard (forallb (fun r => Nat.leb n2 (length r)) C) EIndexError in
  let b := flat_map (fun r => flat_map entry_bits (firstn n2 r)) C in
  let! _ := guard (Nat.eqb (length b mod 8) 0) EValueError in
  Ok (bytes_of_be_bits b).

(** Bit [x] of [bitstring.Bits(b)] (pq_logic/fips/frodokem.py 384): first bit
    is the most significant bit of the first byte. *)
Definition be_bit (b : bytes) (x : nat) : bool :=
  Z.testbit (nth (x / 8) b 0) (Z.of_nat (7 - x mod 8)).

(** Models pq_logic/fips/frodokem.py 380-392: [unpack]. *)
Definition unpack (b : bytes) (n1 n2 : nat) : result matrix :=
  let! _ := guard (D * n1 * n2 <=? 8 * length b)%nat EIndexError in
  Ok (build n1 n2 (fun i j =>
        sum_range D (fun l => if be_bit b ((i * n2 + j) * D + l)
                              then 2 ^ Z.of_nat (D - 1 - l) else 0))).

(** [self.T_chi], pq_logic/fips/frodokem.py 58, 97 and 136. *)
Definition T_chi : list Z := cdf_zero_centred_symmetric (p_chi P).

(** Models pq_logic/fips/frodokem.py 394-411: [sample]. *)
Definition sample (r : Z) : Z :=
  let t := Z.shiftr r 1 in
  let e := fold_left (fun e z => if t >? nth z T_chi 0 then e + 1 else e)
             (seq 0 (length T_chi - 1)) 0 in
  (-1) ^ (r mod 2) * e.

(** Models pq_logic/fips/frodokem.py 413-423: [sample_matrix]. *)
Definition sample_matrix (r : list Z) (n1 n2 : nat) : result matrix :=
  let! _ := guard (n1 * n2 <=? length r)%nat EIndexError in
  Ok (build n1 n2 (fun i j => sample (nth (i * n2 + j) r 0))).

(** [struct.unpack_from('<H', b, 2 * i)[0]], for instance at
    pq_logic/fips/frodokem.py 441. *)
Definition le16 (b : bytes) (i : nat) : Z := nth (2 * i) b 0 + 256 * nth (2 * i + 1) b 0.

(** [struct.pack_into('<H', b, 0, i)] at pq_logic/fips/frodokem.py 434 and 451. *)
Definition pack16 (i : nat) : bytes := [Z.of_nat i mod 256; Z.of_nat i / 256].

(** Models pq_logic/fips/frodokem.py 425-442: [genAES128]. *)
Definition genAES128 (seedA : bytes) : matrix :=
  build n n (fun i j =>
    let c := f_aes128 L seedA (pack16 i ++ pack16 (8 * (j / 8)) ++ repeat 0 12) in
    le16 c (j mod 8) mod q).

(** Models pq_logic/fips/frodokem.py 444-460: [genSHAKE128]. *)
Definition genSHAKE128 (seedA : bytes) : matrix :=
  build n n (fun i j => le16 (f_shake128 L (pack16 i ++ seedA) (2 * n)) j mod q).

(** [self.gen], pq_logic/fips/frodokem.py 33-50. *)
Definition gen (seedA : bytes) : matrix := if aes then genAES128 seedA else genSHAKE128 seedA.

(** The list [r] of 16-bit integers at pq_logic/fips/frodokem.py 483, 538 and 625. *)
Definition words (rbytes : bytes) (count : nat) : list Z := map (le16 rbytes) (seq 0 count).

(** [BitArray(intle=x, length=16)] at pq_logic/fips/frodokem.py 508; values
    outside the range are refused. *)
Definition intle16 (x : Z) : result bytes :=
  let! _ := guard ((-32768 <=? x) && (x <=? 32767)) EValueError in
  Ok [x mod 256; (x / 256) mod 256].

(** [Sbytes.read('intle:16')] at pq_logic/fips/frodokem.py 604. *)
Definition read_intle16 (b : bytes) (i : nat) : Z :=
  let v := le16 b i in if v <? 32768 then v else v - 65536.

(** The loop at pq_logic/fips/frodokem.py 506-508. *)
Fixpoint intle_all (l : list Z) : result bytes :=
  match l with
  | [] => Ok []
  | x :: t => let! h := intle16 x in let! r := intle_all t in Ok (h ++ r)
  end.

(** Models pq_logic/fips/frodokem.py 462-512: [kem_keygen] with its random
    bytes (or seed) as argument. *)
Definition kem_keygen (seed : bytes) : result (bytes * bytes) :=
  let s := slice 0 (p_s P) seed in
  let seedSE := slice (p_s P) (p_s P + p_seedSE P) seed in
  let z := slice (p_s P + p_seedSE P) (p_s P + p_seedSE P + p_z P) seed in
  let seedA := shake z (p_seedA P) in
  let A := gen seedA in
  let rbytes := shake (95 :: seedSE) (2 * n * nbar * 2) in
  let r := words rbytes (2 * n * nbar) in
  let! St := sample_matrix (slice 0 (n * nbar) r) nbar n in
  let! Sm := matrix_transpose St in
  let! E := sample_matrix (slice (n * nbar) (2 * n * nbar) r) n nbar in
  let! AS := matrix_mul A Sm in
  let! Bm := matrix_add AS E in
  let! b := pack Bm in
  let pkh := shake (seedA ++ b) (p_pkh P) in
  let pk := seedA ++ b in
  let! _ := guard (Z.of_nat (length pk) =? p_pk P) EAssertion in
  let! Sb := intle_all (concat St) in
  let sk := s ++ seedA ++ b ++ Sb ++ pkh in
  let! _ := guard (Z.of_nat (length sk) =? p_sk P) EAssertion in
  Ok (pk, sk).

(** Models pq_logic/fips/frodokem.py 514-575: [kem_encaps] with its random
    bytes as argument. *)
Definition kem_encaps (pk mu_salt : bytes) : result (bytes * bytes) :=
  let! _ := guard (Nat.eqb (8 * length pk) (8 * p_seedA P + D * n * nbar)) EAssertion in
  let seedA := slice 0 (p_seedA P) pk in
  let b := skipn (p_seedA P) pk in
  let mu := slice 0 (p_mu P) mu_salt in
  let salt := slice (p_mu P) (p_mu P + p_salt P) mu_salt in
  let pkh := shake pk (p_pkh P) in
  let seedSE_k := shake (pkh ++ mu ++ salt) (p_seedSE P + p_k P) in
  let seedSE := slice 0 (p_seedSE P) seedSE_k in
  let k := slice (p_seedSE P) (p_seedSE P + p_k P) seedSE_k in
  let rbytes := shake (150 :: seedSE) ((2 * mbar * n + mbar * mbar) * 2) in
  let r := words rbytes (2 * mbar * n + mbar * nbar) in
  let! Sp := sample_matrix (slice 0 (mbar * n) r) mbar n in
  let! Ep := sample_matrix (slice (mbar * n) (2 * mbar * n) r) mbar n in
  let A := gen seedA in
  let! SpA := matrix_mul Sp A in
  let! Bp := matrix_add SpA Ep in
  let! c1 := pack Bp in
  let! Epp := sample_matrix (slice (2 * mbar * n) (2 * mbar * n + mbar * nbar) r) mbar nbar in
  let! Bm := unpack b n nbar in
  let! SpB := matrix_mul Sp Bm in
  let! V := matrix_add SpB Epp in
  let! K := encode mu in
  let! C := matrix_add V K in
  let! c2 := pack C in
  let ss := shake (c1 ++ c2 ++ salt ++ k) (p_ss P) in
  let ct := c1 ++ c2 ++ salt in
  let! _ := guard (Z.of_nat (length ct) =? p_ct P) EAssertion in
  let! _ := guard (Nat.eqb (length ss) (p_ss P)) EAssertion in
  Ok (ct, ss).

(** Models pq_logic/fips/frodokem.py 577-671: [kem_decaps]. *)
Definition kem_decaps (sk ct : bytes) : result bytes :=
  let! _ := guard (Z.of_nat (length ct) =? p_ct P) EAssertion in
  let l1 := (mbar * n * D / 8)%nat in
  let l2 := (mbar * nbar * D / 8)%nat in
  let c1 := slice 0 l1 ct in
  let c2 := slice l1 (l1 + l2) ct in
  let salt := slice (l1 + l2) (l1 + l2 + p_salt P) ct in
  let! _ := guard (Z.of_nat (length sk) =? p_sk P) EAssertion in
  let o1 := p_s P in
  let o2 := (o1 + p_seedA P)%nat in
  let o3 := (o2 + D * n * nbar / 8)%nat in
  let o4 := (o3 + n * nbar * 16 / 8)%nat in
  let s := slice 0 o1 sk in
  let seedA := slice o1 o2 sk in
  let b := slice o2 o3 sk in
  let Sbytes := slice o3 o4 sk in
  let St := build nbar n (fun i j => read_intle16 Sbytes (i * n + j)) in
  let! Sm := matrix_transpose St in
  let pkh := slice o4 (o4 + p_pkh P) sk in
  let! Bp := unpack c1 mbar n in
  let! C := unpack c2 mbar nbar in
  let! BpS := matrix_mul Bp Sm in
  let! M := matrix_sub C BpS in
  let! mup := decode M in
  let seedSE_k := shake (pkh ++ mup ++ salt) (p_seedSE P + p_k P) in
  let seedSEp := slice 0 (p_seedSE P) seedSE_k in
  let kp := slice (p_seedSE P) (p_seedSE P + p_k P) seedSE_k in
  let rbytes := shake (150 :: seedSEp) ((2 * mbar * n + mbar * mbar) * 2) in
  let r := words rbytes (2 * mbar * n + mbar * nbar) in
  let! Sp := sample_matrix (slice 0 (mbar * n) r) mbar n in
  let! Ep := sample_matrix (slice (mbar * n) (2 * mbar * n) r) mbar n in
  let A := gen seedA in
  let! SpA := matrix_mul Sp A in
  let! Bpp := matrix_add SpA Ep in
  let! Epp := sample_matrix (slice (2 * mbar * n) (2 * mbar * n + mbar * nbar) r) mbar nbar in
  let! Bm := unpack b n nbar in
  let! SpB := matrix_mul Sp Bm in
  let! V := matrix_add SpB Epp in
  let! K := encode mup in
  let! Cp := matrix_add V K in
  let use_kprime := ctverify (Bp ++ C) (Bpp ++ Cp) in
  let kbar := ctselect kp s use_kprime in
  let ss := shake (c1 ++ c2 ++ salt ++ kbar) (p_ss P) in
  let! _ := guard (Nat.eqb (length ss) (p_ss P)) EAssertion in
  Ok ss.

End Frodo.

(** * The key objects without liboqs *)

(** The attributes of a [FrodoKEMPrivateKey] set at
    pq_logic/keys/abstract_wrapper_keys.py 364-400 ([_private_key_bytes],
    [_public_key_bytes], [_seed]). *)
Record frodo_key := mk_frodo_key {
  fk_private : bytes; fk_public : option bytes; fk_seed : option bytes }.

(** Models pq_logic/keys/kem_keys.py 650-653: [_seed_size], from the table at
    50-57 ([lenA] 128 bits, [lensec], [lenSE]). *)
Definition frodo_seed_size (v : size) : nat :=
  match v with
  | S640 => (128 + 128 + 256) / 8
  | S976 => (128 + 192 + 384) / 8
  | S1344 => (128 + 256 + 512) / 8
  end.

(** Models pq_logic/keys/kem_keys.py 566-580: [from_seed] of a valid
    lower-case algorithm name. *)
Definition frodo_from_seed (L : flib) (v : size) (aes : bool) (seed : bytes) : result frodo_key :=
  let! _ := guard (Nat.eqb (length seed) (frodo_seed_size v)) EInvalidKeyData in
  let! (pk, sk) := kem_keygen L (params_of v) aes seed in
  Ok (mk_frodo_key sk (Some pk) (Some seed)).

(** Models pq_logic/keys/kem_keys.py 629-648: [from_private_bytes] without liboqs. *)
Definition frodo_from_private_bytes (L : flib) (v : size) (aes : bool) (data : bytes) : result frodo_key :=
  if Nat.eqb (frodo_seed_size v) (length data) then frodo_from_seed L v aes data
  else Ok (mk_frodo_key data None None).

(** Models pq_logic/keys/kem_keys.py 513-518: [_derivate_public_key], and
    561-565: [public_key]. *)
Definition frodo_public_key (v : size) (key : frodo_key) : bytes :=
  match fk_public key with
  | Some pk => pk
  | None => slice (p_s (params_of v)) (p_s (params_of v) + Z.to_nat (p_pk (params_of v))) (fk_private key)
  end.

(** Models pq_logic/keys/kem_keys.py 598-616: [decaps] without liboqs. *)
Definition frodo_decaps (L : flib) (v : size) (aes : bool) (key : frodo_key) (ct : bytes) : result bytes :=
  let! _ := guard (Z.of_nat (length ct) =? p_ct (params_of v)) EValueError in
  match kem_decaps L (params_of v) aes (fk_private key) ct with
  | Err EIndexError => Err EValueError
  | r => r
  end.

(** Models pq_logic/keys/kem_keys.py 488-493: [encaps] without liboqs (shared
    secret first). *)
Definition frodo_encaps (L : flib) (v : size) (aes : bool) (pk mu_salt : bytes) : result (bytes * bytes) :=
  let! (ct, ss) := kem_encaps L (params_of v) aes pk mu_salt in Ok (ss, ct).
