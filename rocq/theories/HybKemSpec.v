(** What the drafts say about X-Wing, Chempat and composite KEM, written without the functions of HybKemModel.v except the
    component mechanisms (encaps and decaps of the two halves, the names of keys, the public key of a private one). *)
From Coq Require Import String.
From Verif Require Import Prelude CompSigModel TradKemModel TradKemSpec HybKemModel.
From Verif Require PqKeyModel PqKeySpec MlKemModel MlKemSpec.
Open Scope Z_scope.

(** Lengths of public keys: uncompressed points, raw keys of x25519 and x448. *)
Definition std_pub_len (c : curve) : nat :=
  match c with P256 | BP256 => 65 | P384 | BP384 => 97 | P521 => 133 | BP512 => 129 | X25519 => 32 | X448 => 56 end.
(** What is assumed of the libraries. *)
Record good_hlib (L : hlib) : Prop := {
  gh_trad : good_lib (h_trad L);
  gh_pub_len : forall c d, List.length (t_pub (h_trad L) c d) = std_pub_len c;
  gh_pq : PqKeySpec.good_env (h_pq L);
  gh_sha3 : forall m, List.length (h_sha3 L m) = 32%nat;
  gh_shake : forall m, List.length (h_shake96 L m) = 96%nat
}.

(** Two different strings with the same digest. *)
Definition collision (H : bytes -> bytes) : Prop := exists x y, x <> y /\ H x = H y.

(** ** The post-quantum half *)
(** What is needed of a post-quantum key: with the randomness [m] both sides get the same secret, and the ciphertext has
    the length of the algorithm. *)
Definition pq_correct (L : hlib) (k : pqpriv) (m : bytes) : Prop :=
  forall ss ct, pq_encaps L (pq_public k) m = Ok (ss, ct) ->
    List.length ct = pq_ct_length L (ps_name k) /\ pq_decaps L k ct = Ok ss.
(** The FIPS 203 correctness condition for the key made from the seed [s] and the randomness [m], where [ek] is the public
    key. *)
Definition kem_no_failure (E : PqKeyModel.env) (a : PqKeyModel.kem_name) (s ek m : bytes) : Prop :=
  let p := PqKeyModel.kem_params a in
  let H := PqKeyModel.e_kem E in
  let seeds := MlKemModel.hash_g H (firstn 32 s ++ [Z.of_nat (MlKemModel.k p)]) in
  MlKemSpec.no_failure H p (fst seeds) (snd seeds) (snd (MlKemModel.hash_g H (m ++ MlKemModel.sha3_256 H ek))) m.

(** ** X-Wing (draft-connolly-cfrg-xwing-kem) *)
(** XWingLabel = 5c2e2f2f5e5c; Combiner. *)
Definition xwing_secret (L : hlib) (ss_m ss_x ct_x pk_x : bytes) : bytes :=
  h_sha3 L (ss_m ++ ss_x ++ ct_x ++ pk_x ++ [0x5c; 0x2e; 0x2f; 0x2f; 0x5e; 0x5c]).
(** expandDecapsulationKey: 96 bytes from the 32 byte seed; the code also takes the 96 bytes themselves. *)
Definition expanded (L : hlib) (seed e : bytes) : Prop :=
  (List.length seed = 32%nat /\ e = h_shake96 L seed) \/ (List.length seed = 96%nat /\ e = seed).
(** [k] is the key of the seed. *)
Definition xwing_key (L : hlib) (seed : bytes) (k : xpriv) : Prop :=
  exists e q, expanded L seed e /\ PqKeySpec.seeded (h_pq L) (PqKeyModel.Kem PqKeyModel.K768) (firstn 64 e) q /\
    PqKeySpec.same_key q (xs_pq k) /\ xs_trad k = skipn 64 e.
(** What a user can observe of a private key, apart from the seed. *)
Definition same_xwing (k k' : xpriv) : Prop := PqKeySpec.same_key (xs_pq k) (xs_pq k') /\ xs_trad k = xs_trad k'.

(** ** Chempat (draft-josefsson-chempat) *)
Definition chempat_secret (L : hlib) (trad_ss pq_ss trad_ct pq_ct pq_pk trad_pk context : bytes) : bytes :=
  h_sha3 L (trad_ss ++ pq_ss ++ h_sha3 L (trad_ct ++ pq_ct) ++ h_sha3 L (pq_pk ++ trad_pk) ++ context).
(** The contexts: "Chempat-" curve "-" algorithm. *)
Definition curve_context (c : curve) : option string :=
  match c with
  | P256 => Some "P256" | P384 => Some "P384" | BP256 => Some "brainpoolP256" | BP384 => Some "brainpoolP384"
  | BP512 => Some "brainpoolP512" | X25519 => Some "X25519" | X448 => Some "X448" | P521 => None
  end%string.
Definition pq_context (q : pqname) : string :=
  match q with
  | MlKem PqKeyModel.K512 => "ML-KEM-512" | MlKem PqKeyModel.K768 => "ML-KEM-768" | MlKem PqKeyModel.K1024 => "ML-KEM-1024"
  | Frodo F640 _ => "FrodoKEM-640" | Frodo F976 _ => "FrodoKEM-976" | Frodo F1344 _ => "FrodoKEM-1344"
  | McEliece M348864 => "mceliece348864" | McEliece M460896 => "mceliece460896" | McEliece M6688128 => "mceliece6688128"
  | McEliece M6960119 => "mceliece6960119" | McEliece M8192128 => "mceliece8192128"
  | Sntrup761 => "sntrup761"
  end.
Definition context_of (q : pqname) (c : curve) (ctx : bytes) : Prop :=
  exists n, curve_context c = Some n /\ ctx = lit ("Chempat-" ++ n ++ "-" ++ pq_context q)%string.
(** Same algorithm, except that the AES and SHAKE variants of FrodoKEM are not told apart. *)
Definition same_context_alg (q q' : pqname) : Prop :=
  match q, q' with Frodo n _, Frodo n' _ => n = n' | _, _ => q = q' end.

(** ** Composite KEM (draft-ietf-lamps-pq-composite-kem-07) *)
Inductive talg := ADh (c : curve) | ARsa (bits : N).
(** One combination: class (false: composite-kem, true: composite-dhkem), halves, object identifier. *)
Record krow := KRow { kr_dhkem : bool; kr_pq : pqname; kr_trad : talg; kr_oid : list Z }.
Definition entrust (x : Z) : list Z := [2; 16; 840; 1; 114027; 80; 5; 2; x].
Definition suite (a b : Z) : list Z := [1; 3; 6; 1; 5; 5; 7; 4; 9996; 9999; 3; 1; a; b].
Definition m768 := MlKem PqKeyModel.K768. Definition m1024 := MlKem PqKeyModel.K1024.
(** The rows of the draft. *)
Definition draft_rows : list krow := [
  KRow false m768 (ARsa 2048) (entrust 50); KRow false m768 (ARsa 3072) (entrust 51); KRow false m768 (ARsa 4096) (entrust 52);
  KRow false m768 (ADh X25519) (entrust 53); KRow false m768 (ADh P256) (entrust 54); KRow false m768 (ADh P384) (entrust 55);
  KRow false m768 (ADh BP256) (entrust 56); KRow false m1024 (ARsa 3072) (entrust 61);
  KRow false m1024 (ADh P384) (entrust 57); KRow false m1024 (ADh BP384) (entrust 58); KRow false m1024 (ADh X448) (entrust 59);
  KRow false m1024 (ADh P521) (entrust 60)].
(** The additional combinations of the test suite. *)
Definition frodo_976 (aes : bool) (n : Z) : list krow :=
  let q := Frodo F976 aes in
  [KRow false q (ARsa 2048) (suite 1 n); KRow false q (ARsa 3072) (suite 1 (n + 1)); KRow false q (ARsa 4096) (suite 1 (n + 2));
   KRow false q (ADh X25519) (suite 1 (n + 3)); KRow false q (ADh P384) (suite 1 (n + 4)); KRow false q (ADh BP256) (suite 1 (n + 5))].
Definition three (dh : bool) (q : pqname) (c1 c2 c3 : curve) (a n : Z) : list krow :=
  [KRow dh q (ADh c1) (suite a n); KRow dh q (ADh c2) (suite a (n + 1)); KRow dh q (ADh c3) (suite a (n + 2))].
Definition suite_rows : list krow :=
  frodo_976 true 1 ++ frodo_976 false 7 ++
  three false (Frodo F1344 true) P384 BP384 X448 1 13 ++ three false (Frodo F1344 false) P384 BP384 X448 1 16 ++
  three true m768 X25519 P384 BP256 2 1 ++ three true m1024 P384 BP384 X448 2 4 ++
  three true (Frodo F976 true) X25519 P384 BP256 3 1 ++ three true (Frodo F976 false) X25519 P384 BP256 3 4 ++
  three true (Frodo F1344 true) P384 BP384 X448 3 7 ++ three true (Frodo F1344 false) P384 BP384 X448 3 10.
Definition all_rows : list krow := draft_rows ++ suite_rows.

Definition talg_of (L : hlib) (t : tpub) : talg :=
  match t with PDh _ c _ => ADh c | PRsa k => ARsa (t_rsa_bits (h_trad L) k) end.
Definition key_row (L : hlib) (k : kpub) (r : krow) : Prop :=
  In r all_rows /\ kr_dhkem r = kp_dhkem k /\ kr_pq r = pp_name (kp_pq k) /\ kr_trad r = talg_of L (kp_trad k).

(** The key derivation of a row. *)
Inductive kdf := KSha3 | KHmac (h : hash) (key_len : nat).
Definition row_kdf (r : krow) : kdf :=
  match kr_pq r, kr_trad r with
  | (MlKem PqKeyModel.K768 | Frodo F976 _), ADh X25519 => KSha3
  | (MlKem PqKeyModel.K768 | Frodo F976 _), _ => KHmac Sha256 32
  | _, ADh X448 => KSha3
  | _, _ => KHmac Sha512 64
  end.
Definition run_kdf (L : hlib) (k : kdf) (x : bytes) : bytes :=
  match k with KSha3 => h_sha3 L x | KHmac h n => firstn 32 (h_hmac L h (repeat 0 n) x) end.

(** DER of an object identifier, decided by decoding: tag 6, length, and the arcs in base 128. *)
Fixpoint arcs (acc : Z) (b : bytes) : option (list Z) :=
  match b with
  | [] => if acc =? 0 then Some [] else None
  | x :: r => if x <? 128 then option_map (cons (acc * 128 + x)) (arcs 0 r) else arcs (acc * 128 + (x - 128)) r
  end.
Definition is_der_oid (o : list Z) (b : bytes) : Prop :=
  match o, b with
  | a1 :: a2 :: r, t :: l :: body => t = 6 /\ l = Z.of_nat (List.length body) /\ arcs 0 body = Some (40 * a1 + a2 :: r)
  | _, _ => False
  end.
(** tradPK, the encoding of the traditional public key; the input of the combiner. *)
Definition combiner_input (mlkem_ss trad_ss trad_ct trad_pk der : bytes) : bytes := mlkem_ss ++ trad_ss ++ trad_ct ++ trad_pk ++ der.

(** The identifiers of the Chempat combinations. *)
Definition chempat_rows : list (pqname * curve * list Z) :=
  let o n := [1; 3; 6; 1; 5; 5; 7; 4; 9996; 9999; 3; 2; n] in
  [(Sntrup761, X25519, o 1);
   (McEliece M348864, X25519, o 2); (McEliece M460896, X25519, o 3); (McEliece M6688128, X25519, o 4);
   (McEliece M6960119, X25519, o 5); (McEliece M8192128, X25519, o 6);
   (McEliece M348864, X448, o 7); (McEliece M460896, X448, o 8); (McEliece M6688128, X448, o 9);
   (McEliece M6960119, X448, o 10); (McEliece M8192128, X448, o 11);
   (m768, X25519, o 12); (m1024, X448, o 13); (m768, P256, o 14); (m1024, P384, o 15); (m768, BP256, o 16); (m1024, BP384, o 17);
   (Frodo F976 true, X25519, o 18); (Frodo F976 false, X25519, o 19);
   (Frodo F640 true, BP256, o 20); (Frodo F640 false, BP256, o 21); (Frodo F976 true, BP384, o 22); (Frodo F976 false, BP384, o 23);
   (Frodo F1344 true, BP512, o 24); (Frodo F1344 false, BP512, o 25); (Frodo F1344 true, X448, o 26); (Frodo F1344 false, X448, o 27)].
