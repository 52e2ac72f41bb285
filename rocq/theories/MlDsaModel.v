(** Model of pq_logic/fips/fips204.py (ML-DSA, FIPS 204) with the parts of
    pq_logic/fips/_fips_utils.py it calls.

    The hash functions come from the [cryptography] package and are not
    modelled: they are the fields of [hashes].  Every theorem quantifies over
    them, assuming at most that they return the number of bytes asked for.
    The parameter [param] of the methods only re-runs [__init__]; it is the
    argument [p].  [bytearray] and [bytes] values are both lists of integers:
    no modelled function mutates an argument that a caller passes as [bytes]. *)
From Verif Require Export LatBase.
Local Open Scope Z_scope.

(** pq_logic/fips/fips204.py 27 (ML_DSA_Q). *)
Definition q : Z := 8380417.

(** pq_logic/fips/fips204.py 32-289 (ML_DSA_ZETAS). *)
Definition zetas : list Z := [
    0; 4808194; 3765607; 3761513; 5178923; 5496691; 5234739; 5178987; 7778734;
    3542485; 2682288; 2129892; 3764867; 7375178; 557458; 7159240; 5010068;
    4317364; 2663378; 6705802; 4855975; 7946292; 676590; 7044481; 5152541;
    1714295; 2453983; 1460718; 7737789; 4795319; 2815639; 2283733; 3602218;
    3182878; 2740543; 4793971; 5269599; 2101410; 3704823; 1159875; 394148;
    928749; 1095468; 4874037; 2071829; 4361428; 3241972; 2156050; 3415069;
    1759347; 7562881; 4805951; 3756790; 6444618; 6663429; 4430364; 5483103;
    3192354; 556856; 3870317; 2917338; 1853806; 3345963; 1858416; 3073009;
    1277625; 5744944; 3852015; 4183372; 5157610; 5258977; 8106357; 2508980;
    2028118; 1937570; 4564692; 2811291; 5396636; 7270901; 4158088; 1528066;
    482649; 1148858; 5418153; 7814814; 169688; 2462444; 5046034; 4213992;
    4892034; 1987814; 5183169; 1736313; 235407; 5130263; 3258457; 5801164;
    1787943; 5989328; 6125690; 3482206; 4197502; 7080401; 6018354; 7062739;
    2461387; 3035980; 621164; 3901472; 7153756; 2925816; 3374250; 1356448;
    5604662; 2683270; 5601629; 4912752; 2312838; 7727142; 7921254; 348812;
    8052569; 1011223; 6026202; 4561790; 6458164; 6143691; 1744507; 1753;
    6444997; 5720892; 6924527; 2660408; 6600190; 8321269; 2772600; 1182243;
    87208; 636927; 4415111; 4423672; 6084020; 5095502; 4663471; 8352605; 822541;
    1009365; 5926272; 6400920; 1596822; 4423473; 4620952; 6695264; 4969849;
    2678278; 4611469; 4829411; 635956; 8129971; 5925040; 4234153; 6607829;
    2192938; 6653329; 2387513; 4768667; 8111961; 5199961; 3747250; 2296099;
    1239911; 4541938; 3195676; 2642980; 1254190; 8368000; 2998219; 141835;
    8291116; 2513018; 7025525; 613238; 7070156; 6161950; 7921677; 6458423;
    4040196; 4908348; 2039144; 6500539; 7561656; 6201452; 6757063; 2105286;
    6006015; 6346610; 586241; 7200804; 527981; 5637006; 6903432; 1994046;
    2491325; 6987258; 507927; 7192532; 7655613; 6545891; 5346675; 8041997;
    2647994; 3009748; 5767564; 4148469; 749577; 4357667; 3980599; 2569011;
    6764887; 1723229; 1665318; 2028038; 1163598; 5011144; 3994671; 8368538;
    7009900; 3020393; 3363542; 214880; 545376; 7609976; 3105558; 7277073;
    508145; 7826699; 860144; 3430436; 140244; 6866265; 6195333; 3123762;
    2358373; 6187330; 5365997; 6663603; 2926054; 7987710; 8077412; 3531229;
    4405932; 4606686; 1900052; 7598542; 1054478; 7648983].

(** pq_logic/fips/fips204.py 295-300 (ML_DSA_PARAM):
    (d, tau, lam, gam1, gam2, k, ell, eta, beta, omega). *)
Record params := {
  d : nat; tau : nat; lam : nat; gam1 : Z; gam2 : Z; k : nat; ell : nat; eta : Z; beta : Z; omega : nat }.
Definition ml_dsa_44 := {| d := 13; tau := 39; lam := 128; gam1 := 2 ^ 17; gam2 := (q - 1) / 88;
  k := 4; ell := 4; eta := 2; beta := 78; omega := 80 |}.
Definition ml_dsa_65 := {| d := 13; tau := 49; lam := 192; gam1 := 2 ^ 19; gam2 := (q - 1) / 32;
  k := 6; ell := 5; eta := 4; beta := 196; omega := 55 |}.
Definition ml_dsa_87 := {| d := 13; tau := 60; lam := 256; gam1 := 2 ^ 19; gam2 := (q - 1) / 32;
  k := 8; ell := 7; eta := 2; beta := 120; omega := 75 |}.
Definition param_sets := [ml_dsa_44; ml_dsa_65; ml_dsa_87].

(** pq_logic/fips/fips204.py 320-324 (ML_DSA.h) (SHAKE256), pq_logic/fips/_fips_utils.py 8-32 (_compute_hash),
    pq_logic/fips/_fips_utils.py 34-47 (_compute_shake) and the 1,000,000 bytes an [XOFHash] squeezes when
    first read (pq_logic/fips/_fips_utils.py 49-110 (XOFHash)). *)
Record hashes := {
  sha256 : bytes -> bytes;
  sha512 : bytes -> bytes;
  shake128 : bytes -> nat -> bytes;
  shake256 : bytes -> nat -> bytes;
  xof128 : bytes -> bytes;
  xof256 : bytes -> bytes }.

(** Python [int.bit_length()]. *)
Definition bit_length (b : Z) : nat :=
  if b =? 0 then O else S (Z.to_nat (Z.log2 (Z.abs b))).

(** pq_logic/fips/fips204.py 669-674 (ML_DSA.integer_to_bits). *)
Definition integer_to_bits (x : Z) (alpha : nat) : list Z := bits_of alpha x.

(** pq_logic/fips/fips204.py 678-682 (ML_DSA.bits_to_integer): Horner from the top, IndexError when
    there are fewer than [alpha] bits. *)
Definition bits_to_integer (y : list Z) (alpha : nat) : result Z :=
  if (length y <? alpha)%nat then Err EIndexError
  else Ok (fold_left (fun x i => 2 * x + nthz (alpha - i) y) (seq 1 alpha) 0).

(** pq_logic/fips/fips204.py 686-691 (ML_DSA.integer_to_bytes). *)
Fixpoint integer_to_bytes (x : Z) (alpha : nat) : bytes :=
  match alpha with O => [] | S a => Z.land x 255 :: integer_to_bytes (Z.shiftr x 8) a end.

(** pq_logic/fips/fips204.py 718-725 (ML_DSA.coeff_from_three_bytes). *)
Definition coeff_from_three_bytes (b0 b1 b2 : Z) : option Z :=
  let b2 := if b2 >? 127 then b2 - 128 else b2 in
  let z := Z.shiftl b2 16 + Z.shiftl b1 8 + b0 in
  if z <? q then Some z else None.

(** pq_logic/fips/fips204.py 729-735 (ML_DSA.coeff_from_half_byte). *)
Definition coeff_from_half_byte (eta b : Z) : option Z :=
  if (eta =? 2) && (b <? 15) then Some (2 - b mod 5)
  else if (eta =? 4) && (b <? 9) then Some (4 - b)
  else None.

(** pq_logic/fips/fips204.py 739-744 (ML_DSA.simple_bit_pack). *)
Definition simple_bit_pack (w : list Z) (b : Z) : result bytes :=
  let! w := take_exact 256 w in
  bits_to_bytes (flat_map (fun x => integer_to_bits x (bit_length b)) w).

(** pq_logic/fips/fips204.py 748-753 (ML_DSA.bit_pack). *)
Definition bit_pack (w : list Z) (a b : Z) : result bytes :=
  bits_to_bytes (flat_map (fun x => integer_to_bits (b - x) (bit_length (a + b))) w).

(** pq_logic/fips/fips204.py 757-763 (ML_DSA.simple_bit_unpack). *)
Definition simple_bit_unpack (v : bytes) (b : Z) : result (list Z) :=
  let c := bit_length b in
  let z := bytes_to_bits v in
  mapM (fun i => bits_to_integer (slice (i * c) ((i + 1) * c) z) c) (seq 0 256).

(** pq_logic/fips/fips204.py 767-773 (ML_DSA.bit_unpack). *)
Definition bit_unpack (v : bytes) (a b : Z) : result (list Z) :=
  let c := bit_length (a + b) in
  let z := bytes_to_bits v in
  mapM (fun i => let! x := bits_to_integer (slice (i * c) ((i + 1) * c) z) c in Ok (b - x)) (seq 0 256).

(** pq_logic/fips/fips204.py 777-786 (ML_DSA.hint_bit_pack): the loop over [j] on row [hi] with the state
    ([idx], [y]); an index past the end of [y] is an IndexError. *)
Fixpoint hint_pack_row (js : list nat) (hi : list Z) (idx : nat) (y : bytes) : result (nat * bytes) :=
  match js with
  | [] => Ok (idx, y)
  | j :: r =>
      if (length hi <=? j)%nat then Err EIndexError
      else if nthz j hi =? 0 then hint_pack_row r hi idx y
      else if (length y <=? idx)%nat then Err EIndexError
      else hint_pack_row r hi (S idx) (upd y idx (Z.of_nat j))
  end.

(** pq_logic/fips/fips204.py 777-786 (ML_DSA.hint_bit_pack): the loop over the rows; storing a count above
    255 in the bytearray is a ValueError. *)
Fixpoint hint_pack_rows (p : params) (is : list nat) (h : list (list Z)) (idx : nat) (y : bytes) : result bytes :=
  match is with
  | [] => Ok y
  | i :: r =>
      match nth_error h i with
      | None => Err EIndexError
      | Some hi =>
          let! (idx', y') := hint_pack_row (seq 0 256) hi idx y in
          if (255 <? idx')%nat then Err EValueError
          else hint_pack_rows p r h idx' (upd y' (omega p + i) (Z.of_nat idx'))
      end
  end.
Definition hint_bit_pack (p : params) (h : list (list Z)) : result bytes :=
  hint_pack_rows p (seq 0 (k p)) h 0 (repeat 0 (omega p + k p)).

(** pq_logic/fips/fips204.py 790-806 (ML_DSA.hint_bit_unpack): the [while] loop of one row, which makes
    [n = y[omega+i] - idx] turns; [None] is [return None]. *)
Fixpoint hint_unpack_row (n idx first : nat) (y : bytes) (hi : list Z) : option (list Z) :=
  match n with
  | O => Some hi
  | S n' =>
      if (first <? idx)%nat && (nthz (idx - 1) y >=? nthz idx y) then None
      else hint_unpack_row n' (S idx) first y (upd hi (Z.to_nat (nthz idx y)) 1)
  end.

(** pq_logic/fips/fips204.py 790-806 (ML_DSA.hint_bit_unpack): the loop over the rows, then the check that
    the unused cells are zero. *)
Fixpoint hint_unpack_rows (p : params) (is : list nat) (idx : nat) (y : bytes) : result (option (list (list Z))) :=
  match is with
  | [] => Ok (if forallb (fun i => nthz i y =? 0) (seq idx (omega p - idx)) then Some [] else None)
  | i :: r =>
      if (length y <=? omega p + i)%nat then Err EIndexError
      else
        let b := nthz (omega p + i) y in
        if (b <? Z.of_nat idx) || (b >? Z.of_nat (omega p)) then Ok None
        else
          match hint_unpack_row (Z.to_nat b - idx) idx idx y (repeat 0 256) with
          | None => Ok None
          | Some hi =>
              let! o := hint_unpack_rows p r (Z.to_nat b) y in
              Ok (match o with None => None | Some hs => Some (hi :: hs) end)
          end
  end.
Definition hint_bit_unpack (p : params) (y : bytes) : result (option (list (list Z))) :=
  hint_unpack_rows p (seq 0 (k p)) 0 y.

(** The list concatenations [x += pack(xi)] over the vectors of the encoders. *)
Definition pack_all (f : list Z -> result bytes) (v : list (list Z)) : result bytes :=
  let! bs := mapM f v in Ok (concat bs).

(** [int(self.q - 1).bit_length() - self.d] (fips204.py 812, 821). *)
Definition t1_bits (p : params) : nat := bit_length (q - 1) - d p.

(** pq_logic/fips/fips204.py 810-815 (ML_DSA.pk_encode). *)
Definition pk_encode (p : params) (rho : bytes) (t1 : list (list Z)) : result bytes :=
  let b := 2 ^ Z.of_nat (t1_bits p) - 1 in
  let! r := pack_all (fun t1i => simple_bit_pack t1i b) t1 in
  Ok (rho ++ r).

(** pq_logic/fips/fips204.py 819-827 (ML_DSA.pk_decode). *)
Definition pk_decode (p : params) (pk : bytes) : result (bytes * list (list Z)) :=
  let rho := slice 0 32 pk in
  let bl := t1_bits p in
  let b := 2 ^ Z.of_nat bl - 1 in
  let! t1 := mapM (fun i => simple_bit_unpack (slice (32 + 32 * bl * i) (32 + 32 * bl * (i + 1)) pk) b)
                  (seq 0 (k p)) in
  Ok (rho, t1).

(** pq_logic/fips/fips204.py 831-839 (ML_DSA.sk_encode). *)
Definition sk_encode (p : params) (rho kk tr : bytes) (s1 s2 t0 : list (list Z)) : result bytes :=
  let! b1 := pack_all (fun s => bit_pack s (eta p) (eta p)) s1 in
  let! b2 := pack_all (fun s => bit_pack s (eta p) (eta p)) s2 in
  let! b3 := pack_all (fun t => bit_pack t (2 ^ (Z.of_nat (d p) - 1) - 1) (2 ^ (Z.of_nat (d p) - 1))) t0 in
  Ok (rho ++ kk ++ tr ++ b1 ++ b2 ++ b3).

Record sk_parts := { sk_rho : bytes; sk_kk : bytes; sk_tr : bytes;
  sk_s1 : list (list Z); sk_s2 : list (list Z); sk_t0 : list (list Z) }.

(** [n] slices of [le] bytes from position [pt] on, each unpacked (the loops of
    sk_decode, fips204.py 849-867; [pt += le] in each turn). *)
Definition unpack_at (f : bytes -> result (list Z)) (s : bytes) (pt le n : nat) : result (list (list Z)) :=
  mapM (fun i => f (slice (pt + le * i) (pt + le * (i + 1)) s)) (seq 0 n).

(** pq_logic/fips/fips204.py 843-866 (ML_DSA.sk_decode). *)
Definition sk_decode (p : params) (sk : bytes) : result sk_parts :=
  let le := (32 * bit_length (2 * eta p))%nat in
  let! s1 := unpack_at (fun y => bit_unpack y (eta p) (eta p)) sk 128 le (ell p) in
  let! s2 := unpack_at (fun y => bit_unpack y (eta p) (eta p)) sk (128 + le * ell p) le (k p) in
  let ld := (32 * d p)%nat in
  let! t0 := unpack_at (fun y => bit_unpack y (2 ^ (Z.of_nat (d p) - 1) - 1) (2 ^ (Z.of_nat (d p) - 1)))
                       sk (128 + le * ell p + le * k p) ld (k p) in
  Ok {| sk_rho := slice 0 32 sk; sk_kk := slice 32 64 sk; sk_tr := slice 64 128 sk;
        sk_s1 := s1; sk_s2 := s2; sk_t0 := t0 |}.

(** pq_logic/fips/fips204.py 870-875 (ML_DSA.sig_encode). *)
Definition sig_encode (p : params) (ct : bytes) (z h : list (list Z)) : result bytes :=
  let! b := pack_all (fun i => bit_pack i (gam1 p - 1) (gam1 p)) (firstn (ell p) z) in
  if (length z <? ell p)%nat then Err EIndexError
  else let! hb := hint_bit_pack p h in Ok (ct ++ b ++ hb).

(** pq_logic/fips/fips204.py 879-889 (ML_DSA.sig_decode). *)
Definition sig_decode (p : params) (sg : bytes) : result (bytes * list (list Z) * option (list (list Z))) :=
  let bl := (32 * (1 + bit_length (gam1 p - 1)))%nat in
  let cl := Nat.div (lam p) 4 in
  let ct := slice 0 cl sg in
  let! z := mapM (fun i => bit_unpack (slice (cl + bl * i) (cl + bl * (i + 1)) sg) (gam1 p - 1) (gam1 p))
                 (seq 0 (ell p)) in
  let y := slice (cl + bl * ell p) (cl + bl * ell p + omega p + k p) sg in
  let! h := hint_bit_unpack p y in
  Ok (ct, z, h).

(** pq_logic/fips/fips204.py 893-898 (ML_DSA.w1_encode). *)
Definition w1_encode (p : params) (w1 : list (list Z)) : result bytes :=
  pack_all (fun w => simple_bit_pack w ((q - 1) / (2 * gam2 p) - 1)) w1.

(** pq_logic/fips/fips204.py 902-915 (ML_DSA.sample_in_ball): the [while j > i] loop reads bytes until one is
    at most [i]; pq_logic/fips/_fips_utils.py 79-94 (XOFHash._finalize) raises RuntimeError at the end of the
    squeezed output. *)
Fixpoint read_upto (i : nat) (s : bytes) : result (nat * bytes) :=
  match s with
  | [] => Err ERuntimeError
  | j :: r => if j >? Z.of_nat i then read_upto i r else Ok (Z.to_nat j, r)
  end.

(** pq_logic/fips/fips204.py 902-915 (ML_DSA.sample_in_ball): the loop over [i] in [is]; [h] are the sign bits. *)
Fixpoint ball_loop (p : params) (is : list nat) (h : list Z) (s : bytes) (c : list Z) : result (list Z) :=
  match is with
  | [] => Ok c
  | i :: r =>
      let! (j, s') := read_upto i s in
      let b := (i + tau p - 256)%nat in
      if (length h <=? b)%nat then Err EIndexError
      else ball_loop p r h s' (upd (upd c i (nthz j c)) j (if nthz b h =? 0 then 1 else -1))
  end.
Definition sample_in_ball (p : params) (stream : bytes) : result (list Z) :=
  if (length stream <? 8)%nat then Err ERuntimeError
  else ball_loop p (seq (256 - tau p) (tau p)) (bytes_to_bits (firstn 8 stream)) (skipn 8 stream) (repeat 0 256).

(** pq_logic/fips/fips204.py 919-933 (ML_DSA.rej_ntt_poly) with the XOF output as a list; [n] is [256 - j]. *)
Fixpoint rej_ntt_loop (n : nat) (s : bytes) : result (list Z) :=
  match n with
  | O => Ok []
  | S n' =>
      match s with
      | b0 :: b1 :: b2 :: s' =>
          match coeff_from_three_bytes b0 b1 b2 with
          | Some a => let! r := rej_ntt_loop n' s' in Ok (a :: r)
          | None => rej_ntt_loop n s'
          end
      | _ => Err ERuntimeError
      end
  end.
Definition rej_ntt_poly (stream : bytes) : result (list Z) := rej_ntt_loop 256 stream.

(** pq_logic/fips/fips204.py 937-953 (ML_DSA.rej_bounded_poly); [n] is [256 - j]. *)
Fixpoint rej_bounded_loop (eta : Z) (n : nat) (s : bytes) : result (list Z) :=
  match n with
  | O => Ok []
  | S n' =>
      match s with
      | z :: s' =>
          match coeff_from_half_byte eta (z mod 16), coeff_from_half_byte eta (z / 16) with
          | Some z0, Some z1 =>
              match n' with
              | O => Ok [z0]
              | S n'' => let! r := rej_bounded_loop eta n'' s' in Ok (z0 :: z1 :: r)
              end
          | Some z0, None => let! r := rej_bounded_loop eta n' s' in Ok (z0 :: r)
          | None, Some z1 => let! r := rej_bounded_loop eta n' s' in Ok (z1 :: r)
          | None, None => rej_bounded_loop eta n s'
          end
      | [] => Err ERuntimeError
      end
  end.
Definition rej_bounded_poly (p : params) (stream : bytes) : result (list Z) :=
  rej_bounded_loop (eta p) 256 stream.

(** pq_logic/fips/fips204.py 997-998 (ML_DSA.modpm). *)
Definition modpm (m alpha : Z) : Z := - ((alpha / 2 - m) mod alpha) + alpha / 2.

(** pq_logic/fips/fips204.py 1000-1007 (ML_DSA.inf_norm) on a polynomial and on a vector. *)
Definition inf_norm_poly (f : list Z) : Z := fold_left (fun y x => Z.max y (Z.abs (modpm x q))) f 0.
Definition inf_norm (v : list (list Z)) : Z := fold_left (fun y f => Z.max y (inf_norm_poly f)) v 0.

(** pq_logic/fips/fips204.py 1012-1026 (ML_DSA.power2round): one coefficient ([r1], [r0]), then vectors. *)
Definition power2round1 (d : nat) (rx : Z) : Z * Z :=
  let rp := rx mod q in
  let r0 := modpm rp (Z.shiftl 1 (Z.of_nat d)) in
  (Z.shiftr (rp - r0) (Z.of_nat d), r0).
Definition power2round (p : params) (r : list (list Z)) : list (list Z) * list (list Z) :=
  (map (map (fun x => fst (power2round1 (d p) x))) r, map (map (fun x => snd (power2round1 (d p) x))) r).

(** pq_logic/fips/fips204.py 1030-1038 (ML_DSA.decompose). *)
Definition decompose (gam2 r : Z) : Z * Z :=
  let rp := r mod q in
  let r0 := modpm rp (2 * gam2) in
  if rp - r0 =? q - 1 then (0, r0 - 1) else ((rp - r0) / (2 * gam2), r0).

(** pq_logic/fips/fips204.py 1042-1050 (ML_DSA.high_bits) and pq_logic/fips/fips204.py 1054-1062 (ML_DSA.low_bits). *)
Definition high_bits (p : params) (r : list (list Z)) : list (list Z) :=
  map (map (fun x => fst (decompose (gam2 p) x))) r.
Definition low_bits (p : params) (r : list (list Z)) : list (list Z) :=
  map (map (fun x => snd (decompose (gam2 p) x))) r.

(** Python [v[i]] on a list of polynomials. *)
Definition nthp (i : nat) (v : list (list Z)) : list Z := nth i v [].

(** pq_logic/fips/fips204.py 1143-1147 (ML_DSA.add), pq_logic/fips/fips204.py 1164-1174 (ML_DSA.sub) and
    pq_logic/fips/fips204.py 1151-1160 (ML_DSA.neg) on polynomials. *)
Definition padd (a b : list Z) : list Z := map (fun i => (nthz i a + nthz i b) mod q) (seq 0 (length a)).
Definition psub (a b : list Z) : list Z := map (fun i => (nthz i a - nthz i b) mod q) (seq 0 (length a)).
Definition pneg (a : list Z) : list Z := map (fun x => (- x) mod q) a.

(** pq_logic/fips/fips204.py 1143-1147 (ML_DSA.add) on vectors of polynomials. *)
Definition vadd (a b : list (list Z)) : list (list Z) :=
  map (fun i => padd (nthp i a) (nthp i b)) (seq 0 (length a)).

(** pq_logic/fips/fips204.py 1178-1190 (ML_DSA.neq) on vectors of polynomials. *)
Definition pneq (a b : list Z) : list Z :=
  map (fun i => if nthz i a =? nthz i b then 0 else 1) (seq 0 (length a)).
Definition vneq (a b : list (list Z)) : list (list Z) :=
  map (fun i => pneq (nthp i a) (nthp i b)) (seq 0 (length a)).

(** pq_logic/fips/fips204.py 1194-1203 (ML_DSA.weight) on vectors of polynomials. *)
Definition pweight (a : list Z) : nat := fold_left (fun w x => (w + (if (x =? 0)%Z then 0 else 1))%nat) a 0%nat.
Definition weight (v : list (list Z)) : nat := fold_left (fun w a => (w + pweight a)%nat) v 0%nat.

(** pq_logic/fips/fips204.py 1066-1069 (ML_DSA.make_hint). *)
Definition make_hint (p : params) (z r : list (list Z)) : list (list Z) :=
  vneq (high_bits p r) (high_bits p (vadd r z)).

(** pq_logic/fips/fips204.py 1073-1085 (ML_DSA.use_hint): one coefficient, one polynomial, a vector. *)
Definition use_hint1 (gam2 h r : Z) : Z :=
  let m := (q - 1) / (2 * gam2) in
  let '(r1, r0) := decompose gam2 r in
  let r1 := if (h =? 1) && (r0 >? 0) then (r1 + 1) mod m else r1 in
  if (h =? 1) && (r0 <=? 0) then (r1 - 1) mod m else r1.
Definition use_hint (p : params) (h r : list (list Z)) : list (list Z) :=
  map (fun i => map (fun c => use_hint1 (gam2 p) (nthz c (nthp i h)) (nthz c (nthp i r))) (seq 0 256))
      (seq 0 (length h)).

(** pq_logic/fips/fips204.py 1089-1104 (ML_DSA.ntt): one butterfly and the whole transform; [m] is the table
    index after the increment. *)
Definition ntt_step (m le j : nat) (w : list Z) : list Z :=
  let t := (nthz m zetas * nthz (j + le) w) mod q in
  let w' := upd w (j + le) ((nthz j w - t) mod q) in
  upd w' j ((nthz j w' + t) mod q).
Definition ntt (w : list Z) : list Z :=
  layers ntt_step S [128; 64; 32; 16; 8; 4; 2; 1]%nat 1 w.

(** pq_logic/fips/fips204.py 1108-1131 (ML_DSA.ntt_inverse); [m] is the table index after the decrement. *)
Definition intt_step (m le j : nat) (w : list Z) : list Z :=
  let z := - nthz m zetas in
  let t := nthz j w in
  let w1 := upd w j ((t + nthz (j + le) w) mod q) in
  let w2 := upd w1 (j + le) ((t - nthz (j + le) w1) mod q) in
  upd w2 (j + le) ((z * nthz (j + le) w2) mod q).
Definition ntt_inverse (w : list Z) : list Z :=
  map (fun x => (8347681 * x) mod q)
      (layers intt_step pred [1; 2; 4; 8; 16; 32; 64; 128]%nat 255 w).

(** pq_logic/fips/fips204.py 1135-1139 (ML_DSA.bitrev8). *)
Definition bitrev8 (m : Z) : result Z :=
  let b := integer_to_bits m 8 in
  bits_to_integer (map (fun i => nthz (7 - i) b) (seq 0 8)) 8.

(** pq_logic/fips/fips204.py 1207-1208 (ML_DSA.mul_ntt). *)
Definition mul_ntt (a b : list Z) : list Z := map (fun i => (nthz i a * nthz i b) mod q) (seq 0 256).

Definition zero_poly : list Z := repeat 0 256.

(** pq_logic/fips/fips204.py 1212-1217 (ML_DSA.matrix_vector_ntt). *)
Definition matrix_vector_ntt (p : params) (m : list (list (list Z))) (v : list (list Z)) : list (list Z) :=
  map (fun i => fold_left (fun w j => padd w (mul_ntt (nthp j (nth i m [])) (nthp j v)))
                          (seq 0 (ell p)) zero_poly)
      (seq 0 (k p)).

Section WithHashes.
Variable hs : hashes.
Variable p : params.

(** pq_logic/fips/fips204.py 957-963 (ML_DSA.expand_a). *)
Definition expand_a (rho : bytes) : result (list (list (list Z))) :=
  mapM (fun r => mapM (fun s => rej_ntt_poly (xof128 hs (rho ++ integer_to_bytes (Z.of_nat s) 1
                                                             ++ integer_to_bytes (Z.of_nat r) 1)))
                      (seq 0 (ell p))) (seq 0 (k p)).

(** pq_logic/fips/fips204.py 967-974 (ML_DSA.expand_s). *)
Definition expand_s (rho : bytes) : result (list (list Z) * list (list Z)) :=
  let! s1 := mapM (fun r => rej_bounded_poly p (xof256 hs (rho ++ integer_to_bytes (Z.of_nat r) 2)))
                  (seq 0 (ell p)) in
  let! s2 := mapM (fun r => rej_bounded_poly p (xof256 hs (rho ++ integer_to_bytes (Z.of_nat (r + ell p)) 2)))
                  (seq 0 (k p)) in
  Ok (s1, s2).

(** pq_logic/fips/fips204.py 978-985 (ML_DSA.expand_mask). *)
Definition expand_mask (rho : bytes) (mu : Z) : result (list (list Z)) :=
  let c := (1 + bit_length (gam1 p - 1))%nat in
  mapM (fun r => bit_unpack (shake256 hs (rho ++ integer_to_bytes (mu + Z.of_nat r) 2) (32 * c))
                            (gam1 p - 1) (gam1 p)) (seq 0 (ell p)).

(** pq_logic/fips/fips204.py 437-484 (ML_DSA.keygen_internal). *)
Definition keygen_internal (xi : bytes) : result (bytes * bytes) :=
  let se := shake256 hs (xi ++ integer_to_bytes (Z.of_nat (k p)) 1 ++ integer_to_bytes (Z.of_nat (ell p)) 1) 128 in
  let rho := slice 0 32 se in
  let rhop := slice 32 96 se in
  let kk := slice 96 128 se in
  let! ah := expand_a rho in
  let! (s1, s2) := expand_s rhop in
  let s1h := map ntt s1 in
  let t := matrix_vector_ntt p ah s1h in
  let t := map (fun i => padd (ntt_inverse (nthp i t)) (nthp i s2)) (seq 0 (k p)) in
  let '(t1, t0) := power2round p t in
  let! pk := pk_encode p rho t1 in
  let tr := shake256 hs pk 64 in
  let! sk := sk_encode p rho kk tr s1 s2 t0 in
  Ok (pk, sk).

(** pq_logic/fips/fips204.py 488-598 (ML_DSA.sign_internal): one turn of the [while] loop; [None] when the
    candidate is rejected. *)
Definition sign_attempt (ah : list (list (list Z))) (s1h s2h t0h : list (list Z)) (mu rhopp : bytes)
    (kappa : Z) : result (option (bytes * list (list Z) * list (list Z))) :=
  let! y := expand_mask rhopp kappa in
  let yh := map ntt y in
  let w := map ntt_inverse (matrix_vector_ntt p ah yh) in
  let w1 := high_bits p w in
  let! w1t := w1_encode p w1 in
  let ct := shake256 hs (mu ++ w1t) (Nat.div (lam p) 4) in
  let! c := sample_in_ball p (xof256 hs ct) in
  let ch := ntt c in
  let cs1 := map (fun s => ntt_inverse (mul_ntt ch s)) s1h in
  let cs2 := map (fun s => ntt_inverse (mul_ntt ch s)) s2h in
  let z := map (fun i => padd (nthp i y) (nthp i cs1)) (seq 0 (ell p)) in
  let r0 := low_bits p (map (fun i => psub (nthp i w) (nthp i cs2)) (seq 0 (k p))) in
  if (inf_norm z >=? gam1 p - beta p) || (inf_norm r0 >=? gam2 p - beta p) then Ok None
  else
    let ct0 := map (fun t => ntt_inverse (mul_ntt ch t)) t0h in
    let ct0n := map pneg ct0 in
    let h_r := map (fun i => padd (psub (nthp i w) (nthp i cs2)) (nthp i ct0)) (seq 0 (k p)) in
    let h := make_hint p ct0n h_r in
    if (inf_norm ct0 >=? gam2 p) || (omega p <? weight h)%nat then Ok None
    else Ok (Some (ct, z, h)).

(** pq_logic/fips/fips204.py 488-598 (ML_DSA.sign_internal): the [while] loop.  The code has no bound on the
    number of turns; [fuel] bounds them here and [None] means that no result was
    produced within [fuel] turns, so "returns x" is "for some fuel, Some x". *)
Fixpoint sign_loop (fuel : nat) (ah : list (list (list Z))) (s1h s2h t0h : list (list Z)) (mu rhopp : bytes)
    (kappa : Z) : option (result bytes) :=
  match fuel with
  | O => None
  | S fuel' =>
      match sign_attempt ah s1h s2h t0h mu rhopp kappa with
      | Err e => Some (Err e)
      | Ok None => sign_loop fuel' ah s1h s2h t0h mu rhopp (kappa + Z.of_nat (ell p))
      | Ok (Some (ct, z, h)) => Some (sig_encode p ct (map (map (fun x => modpm x q)) z) h)
      end
  end.
Definition sign_internal (fuel : nat) (sk mp rnd : bytes) : option (result bytes) :=
  match sk_decode p sk with
  | Err e => Some (Err e)
  | Ok s =>
      match expand_a (sk_rho s) with
      | Err e => Some (Err e)
      | Ok ah =>
          let mu := shake256 hs (sk_tr s ++ mp) 64 in
          let rhopp := shake256 hs (sk_kk s ++ rnd ++ mu) 64 in
          sign_loop fuel ah (map ntt (sk_s1 s)) (map ntt (sk_s2 s)) (map ntt (sk_t0 s)) mu rhopp 0
      end
  end.

(** pq_logic/fips/fips204.py 602-665 (ML_DSA.verify_internal). *)
Definition verify_internal (pk mp sg : bytes) : result bool :=
  let! (rho, t1) := pk_decode p pk in
  let! (ct, z, h) := sig_decode p sg in
  match h with
  | None => Ok false
  | Some h =>
      let! ah := expand_a rho in
      let tr := shake256 hs pk 64 in
      let mu := shake256 hs (tr ++ mp) 64 in
      let! c := sample_in_ball p (xof256 hs ct) in
      let zh := map ntt z in
      let wp := matrix_vector_ntt p ah zh in
      let th := map (fun t => ntt (map (fun x => Z.shiftl x (Z.of_nat (d p))) t)) t1 in
      let ch := ntt c in
      let th := map (mul_ntt ch) th in
      let wp := map (fun i => ntt_inverse (psub (nthp i wp) (nthp i th))) (seq 0 (k p)) in
      let w1p := use_hint p h wp in
      let! w1t := w1_encode p w1p in
      let ctp := shake256 hs (mu ++ w1t) (Nat.div (lam p) 4) in
      Ok ((inf_norm z <? gam1 p - beta p) && bytes_eqb ct ctp)
  end.

(** [rnd_in] with its default (fips204.py 344-347, 386-389). *)
Definition default_rnd (rnd_in : option bytes) : bytes :=
  match rnd_in with None => repeat 0 32 | Some r => r end.

(** pq_logic/fips/fips204.py 329-351 (ML_DSA.sign): [Ok None] is [return None]. *)
Definition sign (fuel : nat) (sk m ctx : bytes) (rnd_in : option bytes) : option (result (option bytes)) :=
  if (255 <? length ctx)%nat then Some (Ok None)
  else
    let mp := integer_to_bytes 0 1 ++ integer_to_bytes (Z.of_nat (length ctx)) 1 ++ ctx ++ m in
    match sign_internal fuel sk mp (default_rnd rnd_in) with
    | None => None
    | Some r => Some (let! s := r in Ok (Some s))
    end.

(** pq_logic/fips/fips204.py 356-373 (ML_DSA.verify). *)
Definition verify (pk m sg ctx : bytes) : result bool :=
  if (255 <? length ctx)%nat then Err EValueError
  else
    let mp := integer_to_bytes 0 1 ++ integer_to_bytes (Z.of_nat (length ctx)) 1 ++ ctx ++ m in
    verify_internal pk mp sg.

(** The pre-hash names compared in hash_ml_dsa_sign and hash_ml_dsa_verify; [PhOther]
    is every other string (fips204.py 391-405, 417-431). *)
Inductive prehash := PhSha256 | PhSha512 | PhShake128 | PhOther.

(** The object identifier and digest of the branches (fips204.py 391-405, 417-431). *)
Definition ph_digest (ph : prehash) (m : bytes) : option (bytes * bytes) :=
  match ph with
  | PhSha256 => Some ([6; 9; 96; 134; 72; 1; 101; 3; 4; 2; 1], sha256 hs m)
  | PhSha512 => Some ([6; 9; 96; 134; 72; 1; 101; 3; 4; 2; 3], sha512 hs m)
  | PhShake128 => Some ([6; 9; 96; 134; 72; 1; 101; 3; 4; 2; 11], shake128 hs m 32)
  | PhOther => None
  end.

(** pq_logic/fips/fips204.py 378-406 (ML_DSA.hash_ml_dsa_sign). *)
Definition hash_ml_dsa_sign (fuel : nat) (sk m ctx : bytes) (ph : prehash) (rnd_in : option bytes)
    : option (result (option bytes)) :=
  if (255 <? length ctx)%nat then Some (Ok None)
  else
    match ph_digest ph m with
    | None => Some (Ok None)
    | Some (oid, phm) =>
        let mp := integer_to_bytes 1 1 ++ integer_to_bytes (Z.of_nat (length ctx)) 1 ++ ctx ++ oid ++ phm in
        match sign_internal fuel sk mp (default_rnd rnd_in) with
        | None => None
        | Some r => Some (let! s := r in Ok (Some s))
        end
    end.

(** pq_logic/fips/fips204.py 411-433 (ML_DSA.hash_ml_dsa_verify): [Ok None] is [return None]. *)
Definition hash_ml_dsa_verify (pk m sg ctx : bytes) (ph : prehash) : result (option bool) :=
  if (255 <? length ctx)%nat then Ok None
  else
    match ph_digest ph m with
    | None => Ok (Some false)
    | Some (oid, phm) =>
        let mp := integer_to_bytes 1 1 ++ integer_to_bytes (Z.of_nat (length ctx)) 1 ++ ctx ++ oid ++ phm in
        let! b := verify_internal pk mp sg in Ok (Some b)
    end.
End WithHashes.
