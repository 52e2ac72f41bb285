(** Model of pq_logic/fips/fips203.py (ML-KEM, FIPS 203) with the parts of
    pq_logic/fips/_fips_utils.py it calls.

    The hash functions come from the [cryptography] package and are not
    modelled: they are the fields of [hashes].  Every theorem quantifies over
    them, assuming at most that they return the number of bytes asked for.
    The parameter [param] of keygen/encaps/decaps_internal only re-runs
    [__init__]; it is the argument [p]. *)
From Verif Require Export LatBase.
Local Open Scope Z_scope.

(** pq_logic/fips/fips203.py 311-324 (ML_KEM.__init__): [self.q]. *)
Definition q : Z := 3329.

(** pq_logic/fips/fips203.py 23-23 (ML_KEM_PARAM): (k, eta1, eta2, du, dv). *)
Record params := { k : nat; eta1 : nat; eta2 : nat; du : nat; dv : nat }.
Definition ml_kem_512 := {| k := 2; eta1 := 3; eta2 := 2; du := 10; dv := 4 |}.
Definition ml_kem_768 := {| k := 3; eta1 := 2; eta2 := 2; du := 10; dv := 4 |}.
Definition ml_kem_1024 := {| k := 4; eta1 := 2; eta2 := 2; du := 11; dv := 5 |}.
Definition param_sets := [ml_kem_512; ml_kem_768; ml_kem_1024].

(** pq_logic/fips/fips203.py 30-159 (ML_KEM_ZETA_NTT). *)
Definition zeta_ntt : list Z := [
    1; 1729; 2580; 3289; 2642; 630; 1897; 848; 1062; 1919; 193; 797; 2786; 3260;
    569; 1746; 296; 2447; 1339; 1476; 3046; 56; 2240; 1333; 1426; 2094; 535; 2882;
    2393; 2879; 1974; 821; 289; 331; 3253; 1756; 1197; 2304; 2277; 2055; 650; 1977;
    2513; 632; 2865; 33; 1320; 1915; 2319; 1435; 807; 452; 1438; 2868; 1534; 2402;
    2647; 2617; 1481; 648; 2474; 3110; 1227; 910; 17; 2761; 583; 2649; 1637; 723;
    2288; 1100; 1409; 2662; 3281; 233; 756; 2156; 3015; 3050; 1703; 1651; 2789;
    1789; 1847; 952; 1461; 2687; 939; 2308; 2437; 2388; 733; 2337; 268; 641; 1584;
    2298; 2037; 3220; 375; 2549; 2090; 1645; 1063; 319; 2773; 757; 2099; 561; 2466;
    2594; 2804; 1092; 403; 1026; 1143; 2150; 2775; 886; 1722; 1212; 1874; 1029;
    2110; 2935; 885; 2154].

(** pq_logic/fips/fips203.py 165-294 (ML_KEM_ZETA_MUL). *)
Definition zeta_mul : list Z := [
    17; (-17); 2761; (-2761); 583; (-583); 2649; (-2649); 1637; (-1637); 723;
    (-723); 2288; (-2288); 1100; (-1100); 1409; (-1409); 2662; (-2662); 3281;
    (-3281); 233; (-233); 756; (-756); 2156; (-2156); 3015; (-3015); 3050; (-3050);
    1703; (-1703); 1651; (-1651); 2789; (-2789); 1789; (-1789); 1847; (-1847); 952;
    (-952); 1461; (-1461); 2687; (-2687); 939; (-939); 2308; (-2308); 2437; (-2437);
    2388; (-2388); 733; (-733); 2337; (-2337); 268; (-268); 641; (-641); 1584;
    (-1584); 2298; (-2298); 2037; (-2037); 3220; (-3220); 375; (-375); 2549;
    (-2549); 2090; (-2090); 1645; (-1645); 1063; (-1063); 319; (-319); 2773;
    (-2773); 757; (-757); 2099; (-2099); 561; (-561); 2466; (-2466); 2594; (-2594);
    2804; (-2804); 1092; (-1092); 403; (-403); 1026; (-1026); 1143; (-1143); 2150;
    (-2150); 2775; (-2775); 886; (-886); 1722; (-1722); 1212; (-1212); 1874;
    (-1874); 1029; (-1029); 2110; (-2110); 2935; (-2935); 885; (-885); 2154; (-2154)].

(** pq_logic/fips/_fips_utils.py 8-32 (_compute_hash), pq_logic/fips/_fips_utils.py 34-47 (_compute_shake) and
    the 1,000,000 bytes [XOFHash("shake128")] squeezes when first read
    (pq_logic/fips/_fips_utils.py 49-110 (XOFHash)). *)
Record hashes := {
  sha3_256 : bytes -> bytes;
  sha3_512 : bytes -> bytes;
  shake256 : bytes -> nat -> bytes;
  xof128 : bytes -> bytes }.

(** pq_logic/fips/fips203.py 348-349 (ML_KEM.compress). *)
Definition compress1 (d : nat) (x : Z) : Z :=
  ((Z.shiftl x (Z.of_nat d) + (q - 1) / 2) / q) mod (Z.shiftl 1 (Z.of_nat d)).
Definition compress (d : nat) (xv : list Z) : list Z := map (compress1 d) xv.

(** pq_logic/fips/fips203.py 351-352 (ML_KEM.decompress). *)
Definition decompress1 (d : nat) (y : Z) : Z :=
  Z.shiftr (q * y + Z.shiftl 1 (Z.of_nat d - 1)) (Z.of_nat d).
Definition decompress (d : nat) (yv : list Z) : list Z := map (decompress1 d) yv.

(** The modulus [m] of byte_encode and byte_decode (fips203.py 385-388, 401-404). *)
Definition enc_mod (d : nat) : Z :=
  if (d <? 12)%nat then Z.shiftl 1 (Z.of_nat d) else q.

(** pq_logic/fips/fips203.py 379-396 (ML_KEM.byte_encode) on one polynomial; the bit array
    filled at [i*d+j] is the concatenation of the [d]-bit groups. *)
Definition byte_encode (d : nat) (f : list Z) : result bytes :=
  let! f := take_exact 256 f in
  bits_to_bytes (flat_map (fun x => bits_of d (x mod enc_mod d)) f).

(** pq_logic/fips/fips203.py 379-396 (ML_KEM.byte_encode) on a list of polynomials. *)
Definition byte_encode_vec (d : nat) (fs : list (list Z)) : result bytes :=
  let! bs := mapM (byte_encode d) fs in Ok (concat bs).

(** pq_logic/fips/fips203.py 400-412 (ML_KEM.byte_decode). *)
Definition byte_decode (d : nat) (b : bytes) : result (list Z) :=
  let! cs := chunks 256 d (bytes_to_bits b) in
  Ok (map (fun c => from_bits c mod enc_mod d) cs).

(** pq_logic/fips/fips203.py 416-433 (ML_KEM.sample_ntt) with the XOF output as a list, read
    three bytes at a time; pq_logic/fips/_fips_utils.py 79-94 (XOFHash._finalize) raises RuntimeError
    when fewer are left. [n] is [256 - j]. *)
Fixpoint sample_ntt_loop (n : nat) (s : bytes) : result (list Z) :=
  match n with
  | O => Ok []
  | S n1 =>
      match s with
      | c0 :: c1 :: c2 :: s' =>
          let d1 := c0 + 256 * (c1 mod 16) in
          let d2 := c1 / 16 + 16 * c2 in
          if d1 <? q then
            if (d2 <? q) && negb (n1 =? 0)%nat
            then let! a := sample_ntt_loop (pred n1) s' in Ok (d1 :: d2 :: a)
            else let! a := sample_ntt_loop n1 s' in Ok (d1 :: a)
          else
            if d2 <? q
            then let! a := sample_ntt_loop n1 s' in Ok (d2 :: a)
            else sample_ntt_loop n s'
      | _ => Err ERuntimeError
      end
  end.
Definition sample_ntt (stream : bytes) : result (list Z) := sample_ntt_loop 256 stream.

(** pq_logic/fips/fips203.py 437-444 (ML_KEM.sample_poly_cbd). *)
Definition zlsum (l : list Z) : Z := fold_right Z.add 0 l.
Definition sample_poly_cbd (eta : nat) (b : bytes) : list Z :=
  let b := bytes_to_bits b in
  map (fun i =>
         let x := zlsum (slice (2 * i * eta) ((2 * i + 1) * eta) b) in
         let y := zlsum (slice ((2 * i + 1) * eta) ((2 * i + 2) * eta) b) in
         (x - y) mod q) (seq 0 256).

(** pq_logic/fips/fips203.py 448-461 (ML_KEM.ntt): one butterfly and the whole transform. *)
Definition ntt_step (i le j : nat) (f : list Z) : list Z :=
  let t := (nthz i zeta_ntt * nthz (j + le) f) mod q in
  let f' := upd f (j + le) ((nthz j f - t) mod q) in
  upd f' j ((nthz j f' + t) mod q).
Definition ntt (f : list Z) : list Z :=
  layers ntt_step S [128; 64; 32; 16; 8; 4; 2]%nat 1 f.

(** pq_logic/fips/fips203.py 465-479 (ML_KEM.ntt_inverse). *)
Definition intt_step (i le j : nat) (f : list Z) : list Z :=
  let ze := nthz i zeta_ntt in
  let t := nthz j f in
  let f' := upd f j ((t + nthz (j + le) f) mod q) in
  upd f' (j + le) ((ze * (nthz (j + le) f' - t)) mod q).
Definition ntt_inverse (f : list Z) : list Z :=
  map (fun x => (x * 3303) mod q)
      (layers intt_step pred [2; 4; 8; 16; 32; 64; 128]%nat 127 f).

(** pq_logic/fips/fips203.py 491-494 (ML_KEM.best_case_multiply). *)
Definition base_case_multiply (a0 a1 b0 b1 gam : Z) : list Z :=
  [ (a0 * b0 + a1 * b1 * gam) mod q; (a0 * b1 + a1 * b0) mod q ].

(** pq_logic/fips/fips203.py 483-487 (ML_KEM.multiply_ntts); [ii = 2 i]. *)
Definition multiply_ntts (f g : list Z) : list Z :=
  flat_map (fun i => base_case_multiply (nthz (2 * i) f) (nthz (2 * i + 1) f)
                       (nthz (2 * i) g) (nthz (2 * i + 1) g) (nthz i zeta_mul))
           (seq 0 128).

(** pq_logic/fips/fips203.py 498-499 (ML_KEM.poly_add), pq_logic/fips/fips203.py 501-502 (ML_KEM.poly_sub). *)
Definition poly_add (f g : list Z) : list Z :=
  map (fun i => (nthz i f + nthz i g) mod q) (seq 0 256).
Definition poly_sub (f g : list Z) : list Z :=
  map (fun i => (nthz i f - nthz i g) mod q) (seq 0 256).

Definition zero_poly : list Z := repeat 0 256.

(** Python [v[i]] on a list of polynomials. *)
Definition nthp (i : nat) (v : list (list Z)) : list Z := nth i v [].

Section WithHashes.
Variable hs : hashes.
Variable p : params.

(** pq_logic/fips/fips203.py 328-329 (ML_KEM.h), g, j and prf (lines 328-343). *)
Definition hash_h (x : bytes) : bytes := sha3_256 hs x.
Definition hash_g (x : bytes) : bytes * bytes :=
  let h := sha3_512 hs x in (slice 0 32 h, slice 32 64 h).
Definition hash_j (s : bytes) : bytes := shake256 hs s 32.
Definition prf (eta : nat) (s : bytes) (b : nat) : bytes :=
  shake256 hs (s ++ [Z.of_nat b]) (64 * eta).

(** The matrix [a] of k_pke_keygen and k_pke_encrypt (fips203.py 512-515, 547-550). *)
Definition gen_matrix (rho : bytes) : result (list (list (list Z))) :=
  mapM (fun i => mapM (fun j => sample_ntt (xof128 hs (rho ++ [Z.of_nat j; Z.of_nat i])))
                      (seq 0 (k p))) (seq 0 (k p)).

(** The loops filling [s], [e], [y], [e1] (e.g. lines 517-520): entry [i] uses
    counter [n0 + i]. *)
Definition sample_vec (eta : nat) (s : bytes) (n0 : nat) : list (list Z) :=
  map (fun i => sample_poly_cbd eta (prf eta s (n0 + i))) (seq 0 (k p)).

(** [acc += sum over j < k of multiply_ntts(f j, g j)] (lines 532-534, 567-570,
    580-582, 610-612). *)
Definition dot (acc : list Z) (f g : nat -> list Z) : list Z :=
  fold_left (fun t j => poly_add t (multiply_ntts (f j) (g j))) (seq 0 (k p)) acc.

(** pq_logic/fips/fips203.py 506-538 (ML_KEM.k_pke_keygen). *)
Definition k_pke_keygen (d : bytes) : result (bytes * bytes) :=
  let '(rho, sig) := hash_g (d ++ [Z.of_nat (k p)]) in
  let! a := gen_matrix rho in
  let s := map ntt (sample_vec (eta1 p) sig 0) in
  let e := map ntt (sample_vec (eta1 p) sig (k p)) in
  let t := map (fun i => dot (nthp i e) (fun j => nthp j (nth i a [])) (fun j => nthp j s))
               (seq 0 (k p)) in
  let! tb := byte_encode_vec 12 t in
  let! dk_pke := byte_encode_vec 12 s in
  Ok (tb ++ rho, dk_pke).

(** pq_logic/fips/fips203.py 542-594 (ML_KEM.k_pke_encrypt). *)
Definition k_pke_encrypt (ek_pke m r : bytes) : result bytes :=
  let! t := mapM (fun i => byte_decode 12 (slice (384 * i) (384 * (i + 1)) ek_pke))
                 (seq 0 (k p)) in
  let rho := slice (384 * k p) (384 * k p + 32) ek_pke in
  let! a := gen_matrix rho in
  let y := map ntt (sample_vec (eta1 p) r 0) in
  let e1 := sample_vec (eta2 p) r (k p) in
  let e2 := sample_poly_cbd (eta2 p) (prf (eta2 p) r (k p + k p)) in
  let u := map (fun i =>
             poly_add (ntt_inverse (dot zero_poly (fun j => nthp i (nth j a [])) (fun j => nthp j y)))
                      (nthp i e1)) (seq 0 (k p)) in
  let! mb := byte_decode 1 m in
  let mu := decompress 1 mb in
  let v := ntt_inverse (dot zero_poly (fun i => nthp i t) (fun i => nthp i y)) in
  let v := poly_add v e2 in
  let v := poly_add v mu in
  let! c1 := byte_encode_vec (du p) (map (compress (du p)) u) in
  let! c2 := byte_encode (dv p) (compress (dv p) v) in
  Ok (c1 ++ c2).

(** pq_logic/fips/fips203.py 598-617 (ML_KEM.k_pke_decrypt). *)
Definition k_pke_decrypt (dk_pke c : bytes) : result bytes :=
  let c1 := slice 0 (32 * du p * k p) c in
  let c2 := slice (32 * du p * k p) (32 * (du p * k p + dv p)) c in
  let! up := mapM (fun i =>
               let! b := byte_decode (du p) (slice (32 * du p * i) (32 * du p * (i + 1)) c1) in
               Ok (decompress (du p) b)) (seq 0 (k p)) in
  let! vb := byte_decode (dv p) c2 in
  let vp := decompress (dv p) vb in
  let! s := mapM (fun i => byte_decode 12 (slice (384 * i) (384 * (i + 1)) dk_pke))
                 (seq 0 (k p)) in
  let w := dot zero_poly (fun i => nthp i s) (fun i => ntt (nthp i up)) in
  let w := poly_sub vp (ntt_inverse w) in
  byte_encode 1 (compress 1 w).

(** pq_logic/fips/fips203.py 621-634 (ML_KEM.keygen_internal). *)
Definition keygen_internal (d z : bytes) : result (bytes * bytes) :=
  let! (ek, dk_pke) := k_pke_keygen d in
  Ok (ek, dk_pke ++ ek ++ hash_h ek ++ z).

(** pq_logic/fips/fips203.py 638-654 (ML_KEM.encaps_internal). *)
Definition encaps_internal (ek m : bytes) : result (bytes * bytes) :=
  let '(kk, r) := hash_g (m ++ hash_h ek) in
  let! c := k_pke_encrypt ek m r in
  Ok (kk, c).

(** pq_logic/fips/fips203.py 656-658 (ML_KEM.get_public_key). *)
Definition get_public_key (dk : bytes) : bytes := slice (384 * k p) (768 * k p + 32) dk.

(** pq_logic/fips/fips203.py 661-686 (ML_KEM.decaps_internal). *)
Definition decaps_internal (dk c : bytes) : result bytes :=
  let dk_pke := slice 0 (384 * k p) dk in
  let ek_pke := slice (384 * k p) (768 * k p + 32) dk in
  let h := slice (768 * k p + 32) (768 * k p + 64) dk in
  let z := slice (768 * k p + 64) (768 * k p + 96) dk in
  let! mp := k_pke_decrypt dk_pke c in
  let '(kp, rp) := hash_g (mp ++ h) in
  let kk := hash_j (z ++ c) in
  let! cp := k_pke_encrypt ek_pke mp rp in
  Ok (if bytes_eqb c cp then kp else kk).
End WithHashes.
