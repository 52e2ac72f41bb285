(** Model of pq_logic/fips/fips205.py (SLH-DSA, FIPS 205).

    An [ADRS] object is a mutable array of 32 bytes that is passed by reference;
    here every function that writes to it returns the array it leaves behind, so
    that bytes left over from earlier calls are visible exactly as in the code.
    The hash primitives are the fields of [raw].

    Simplifications: [int.to_bytes] raises OverflowError for a value that does
    not fit its field, here the value is reduced ([be]); all values written stay
    below the field size for the parameter sets of the file (layers below 22,
    trees below 2^64, leaves, heights and indices below 2^19).  xmss_node,
    fors_node and chain return None on arguments out of range, and every caller
    concatenates the value to a byte string, which raises TypeError: the model
    raises it at the return. *)
From Verif Require Export LatBase.
Local Open Scope Z_scope.

(** [x.to_bytes(n, byteorder="big")]. *)
Fixpoint be (n : nat) (x : Z) : bytes :=
  match n with O => [] | S n' => be n' (x / 256) ++ [x mod 256] end.
(** [int.from_bytes(s, byteorder="big")]. *)
Definition from_be (s : bytes) : Z := fold_left (fun t x => 256 * t + x) s 0.
(** Slice assignment [a[i:j] = v]. *)
Definition set_slice (i j : nat) (v a : bytes) : bytes := firstn i a ++ v ++ skipn j a.

(** Type constants, fips205.py 31-37. *)
Definition WOTS_HASH : Z := 0.
Definition WOTS_PK : Z := 1.
Definition TREE : Z := 2.
Definition FORS_TREE : Z := 3.
Definition FORS_ROOTS : Z := 4.
Definition WOTS_PRF : Z := 5.
Definition FORS_PRF : Z := 6.

(** pq_logic/fips/fips205.py 41-43 (ADRS.__init__) with the default argument. *)
Definition new_adrs : bytes := repeat 0 32.
(** pq_logic/fips/fips205.py 49-51 (ADRS.set_layer_address) *)
Definition set_layer_address (x : Z) (a : bytes) : bytes := set_slice 0 4 (be 4 x) a.
(** pq_logic/fips/fips205.py 53-55 (ADRS.set_tree_address) *)
Definition set_tree_address (x : Z) (a : bytes) : bytes := set_slice 4 16 (be 12 x) a.
(** pq_logic/fips/fips205.py 57-59 (ADRS.set_key_pair_address) *)
Definition set_key_pair_address (x : Z) (a : bytes) : bytes := set_slice 20 24 (be 4 x) a.
(** pq_logic/fips/fips205.py 61-63 (ADRS.get_key_pair_address) *)
Definition get_key_pair_address (a : bytes) : Z := from_be (slice 20 24 a).
(** pq_logic/fips/fips205.py 65-67 (ADRS.set_tree_height) *)
Definition set_tree_height (x : Z) (a : bytes) : bytes := set_slice 24 28 (be 4 x) a.
(** pq_logic/fips/fips205.py 69-71 (ADRS.set_chain_address) *)
Definition set_chain_address (x : Z) (a : bytes) : bytes := set_slice 24 28 (be 4 x) a.
(** pq_logic/fips/fips205.py 73-75 (ADRS.set_tree_index) *)
Definition set_tree_index (x : Z) (a : bytes) : bytes := set_slice 28 32 (be 4 x) a.
(** pq_logic/fips/fips205.py 77-79 (ADRS.get_tree_index) *)
Definition get_tree_index (a : bytes) : Z := from_be (slice 28 32 a).
(** pq_logic/fips/fips205.py 81-83 (ADRS.set_hash_address) *)
Definition set_hash_address (x : Z) (a : bytes) : bytes := set_slice 28 32 (be 4 x) a.
(** pq_logic/fips/fips205.py 85-92 (ADRS.set_type_and_clear) *)
Definition set_type_and_clear (t : Z) (a : bytes) : bytes :=
  set_slice 20 32 (repeat 0 12) (set_slice 16 20 (be 4 t) a).
(** pq_logic/fips/fips205.py 98-100 (ADRS.adrsc) *)
Definition adrsc (a : bytes) : bytes := slice 3 4 a ++ slice 8 16 a ++ slice 19 20 a ++ slice 20 32 a.

Inductive family := SHAKE | SHA2.
(** The attributes set in pq_logic/fips/fips205.py 123-170 (SLH_DSA.__init__) *)
Record params := { fam : family; n : nat; h : nat; d : nat; hp : nat; a : nat; k : nat; lg_w : nat; m : nat }.

(** Table 2, pq_logic/fips/fips205.py 854-867 (SLH_DSA_PARAMS) *)
Definition p128s (f : family) := {| fam := f; n := 16; h := 63; d := 7; hp := 9; a := 12; k := 14; lg_w := 4; m := 30 |}.
Definition p128f (f : family) := {| fam := f; n := 16; h := 66; d := 22; hp := 3; a := 6; k := 33; lg_w := 4; m := 34 |}.
Definition p192s (f : family) := {| fam := f; n := 24; h := 63; d := 7; hp := 9; a := 14; k := 17; lg_w := 4; m := 39 |}.
Definition p192f (f : family) := {| fam := f; n := 24; h := 66; d := 22; hp := 3; a := 8; k := 33; lg_w := 4; m := 42 |}.
Definition p256s (f : family) := {| fam := f; n := 32; h := 64; d := 8; hp := 8; a := 14; k := 22; lg_w := 4; m := 47 |}.
Definition p256f (f : family) := {| fam := f; n := 32; h := 68; d := 17; hp := 4; a := 9; k := 35; lg_w := 4; m := 49 |}.
Definition param_sets : list params :=
  flat_map (fun f => [p128s f; p128f f; p192s f; p192f f; p256s f; p256f f]) [SHA2; SHAKE].

(** The primitives of pq_logic/fips/_fips_utils.py used here (_compute_hash, _compute_shake). *)
Record raw := { r_sha256 : bytes -> bytes; r_sha512 : bytes -> bytes;
  r_shake128 : bytes -> nat -> bytes; r_shake256 : bytes -> nat -> bytes }.

(** pq_logic/fips/fips205.py 212-224 (SLH_DSA.mgf) *)
Definition mgf (hash_f : bytes -> bytes) (hash_l : nat) (seed : bytes) (mask_len : nat) : bytes :=
  firstn mask_len (flat_map (fun c => hash_f (seed ++ be 4 (Z.of_nat c)))
                            (seq 0 (Nat.div (mask_len + hash_l - 1) hash_l))).
(** pq_logic/fips/fips205.py 234-244 (SLH_DSA.hmac) *)
Definition hmac (hash_f : bytes -> bytes) (hash_b : nat) (key text : bytes) : bytes :=
  let key := if (hash_b <? length key)%nat then hash_f key else key in
  let pad := key ++ repeat 0 (hash_b - length key) in
  let ipad := map (fun x => Z.lxor x 54) pad in
  let opad := map (fun x => Z.lxor x 92) pad in
  hash_f (opad ++ hash_f (ipad ++ text)).

Section Hashes.
Variable hs : raw.
Variable p : params.

(** [self.sha256(x, n)] and [self.sha512(x, n)], fips205.py 192-211. *)
Definition sha256t (x : bytes) (l : nat) : bytes := firstn l (r_sha256 hs x).
Definition sha512t (x : bytes) (l : nat) : bytes := firstn l (r_sha512 hs x).

(** pq_logic/fips/fips205.py 178-179 (SLH_DSA.shake_h_msg), pq_logic/fips/fips205.py 267-268 (SLH_DSA.sha256_h_msg) and
    pq_logic/fips/fips205.py 302-304 (SLH_DSA.sha512_h_msg), chosen as in __init__. *)
Definition h_msg (r pk_seed pk_root msg : bytes) : bytes :=
  match fam p with
  | SHAKE => r_shake256 hs (r ++ pk_seed ++ pk_root ++ msg) (m p)
  | SHA2 =>
      if (n p =? 16)%nat
      then mgf (fun x => sha256t x 32) 32 (r ++ pk_seed ++ sha256t (r ++ pk_seed ++ pk_root ++ msg) 32) (m p)
      else mgf (fun x => sha512t x 64) 64 (r ++ pk_seed ++ sha512t (r ++ pk_seed ++ pk_root ++ msg) 64) (m p)
  end.
(** pq_logic/fips/fips205.py 181-182 (SLH_DSA.shake_prf) and pq_logic/fips/fips205.py 270-278 (SLH_DSA.sha256_prf) *)
Definition prf (pk_seed sk_seed adrs : bytes) : bytes :=
  match fam p with
  | SHAKE => r_shake256 hs (pk_seed ++ adrs ++ sk_seed) (n p)
  | SHA2 => sha256t (pk_seed ++ repeat 0 (64 - n p) ++ adrsc adrs ++ sk_seed) (n p)
  end.
(** pq_logic/fips/fips205.py 184-185 (SLH_DSA.shake_prf_msg), pq_logic/fips/fips205.py 280-288 (SLH_DSA.sha256_prf_msg) and
    pq_logic/fips/fips205.py 306-314 (SLH_DSA.sha512_prf_msg) *)
Definition prf_msg (sk_prf opt_rand msg : bytes) : bytes :=
  match fam p with
  | SHAKE => r_shake256 hs (sk_prf ++ opt_rand ++ msg) (n p)
  | SHA2 =>
      if (n p =? 16)%nat then firstn (n p) (hmac (fun x => sha256t x 32) 64 sk_prf (opt_rand ++ msg))
      else firstn (n p) (hmac (fun x => sha512t x 64) 128 sk_prf (opt_rand ++ msg))
  end.
(** pq_logic/fips/fips205.py 187-188 (SLH_DSA.shake_f) and pq_logic/fips/fips205.py 290-298 (SLH_DSA.sha256_f) *)
Definition h_f (pk_seed adrs m1 : bytes) : bytes :=
  match fam p with
  | SHAKE => r_shake256 hs (pk_seed ++ adrs ++ m1) (n p)
  | SHA2 => sha256t (pk_seed ++ repeat 0 (64 - n p) ++ adrsc adrs ++ m1) (n p)
  end.
(** [h_h] and [h_t] are the same function in every parameter set, fips205.py 135-155,
    pq_logic/fips/fips205.py 316-318 (SLH_DSA.sha512_h) *)
Definition h_h (pk_seed adrs m2 : bytes) : bytes :=
  match fam p with
  | SHAKE => r_shake256 hs (pk_seed ++ adrs ++ m2) (n p)
  | SHA2 =>
      if (n p =? 16)%nat then sha256t (pk_seed ++ repeat 0 (64 - n p) ++ adrsc adrs ++ m2) (n p)
      else sha512t (pk_seed ++ repeat 0 (128 - n p) ++ adrsc adrs ++ m2) (n p)
  end.
Definition h_t : bytes -> bytes -> bytes -> bytes := h_h.

(** Equations 5.1-5.4, fips205.py 158-162. *)
Definition w : Z := 2 ^ Z.of_nat (lg_w p).
Definition len1 : nat := Nat.div (8 * n p + (lg_w p - 1)) (lg_w p).
Definition bitlen (x : Z) : nat := if x =? 0 then O else S (Z.to_nat (Z.log2 x)).
Definition len2 : nat := (Nat.div (bitlen (Z.of_nat len1 * (w - 1))) (lg_w p) + 1)%nat.
Definition len : nat := (len1 + len2)%nat.
(** External sizes, fips205.py 164-167. *)
Definition pk_sz : nat := (2 * n p)%nat.
Definition sk_sz : nat := (4 * n p)%nat.
Definition sig_sz : nat := ((1 + k p * (1 + a p) + h p + d p * len) * n p)%nat.

(** pq_logic/fips/fips205.py 322-327 (SLH_DSA.to_int): IndexError when [s] has fewer than [l] bytes. *)
Definition to_int (s : bytes) (l : nat) : result Z :=
  if (length s <? l)%nat then Err EIndexError
  else Ok (fold_left (fun t x => Z.shiftl t 8 + x) (firstn l s) 0).

(** pq_logic/fips/fips205.py 329-336 (SLH_DSA.to_byte) *)
Definition to_byte (x : Z) (l : nat) : bytes := be l x.

(** pq_logic/fips/fips205.py 338-355 (SLH_DSA.base_2b): the [while c < b] loop, [s] being the bytes not yet read. *)
Fixpoint fill (b c : nat) (t : Z) (s : bytes) : result (nat * Z * bytes) :=
  if (c <? b)%nat then
    match s with
    | [] => Err EIndexError
    | x :: r => fill b (c + 8) (Z.shiftl t 8 + x) r
    end
  else Ok (c, t, s).
Fixpoint base_2b_loop (b out_len c : nat) (t : Z) (s : bytes) : result (list Z) :=
  match out_len with
  | O => Ok []
  | S o =>
      let! (c, t, s) := fill b c t s in
      let c := (c - b)%nat in
      let! v := base_2b_loop b o c t s in
      Ok (Z.land (Z.shiftr t (Z.of_nat c)) (Z.shiftl 1 (Z.of_nat b) - 1) :: v)
  end.
Definition base_2b (s : bytes) (b out_len : nat) : result (list Z) := base_2b_loop b out_len 0 0 s.

(** pq_logic/fips/fips205.py 357-367 (SLH_DSA.chain) *)
Fixpoint chain_loop (js : list nat) (pk_seed t adrs : bytes) : bytes * bytes :=
  match js with
  | [] => (t, adrs)
  | j :: r =>
      let adrs := set_hash_address (Z.of_nat j) adrs in
      chain_loop r pk_seed (h_f pk_seed adrs t) adrs
  end.
Definition chain (x : bytes) (i s : Z) (pk_seed adrs : bytes) : result (bytes * bytes) :=
  if i + s >=? w then Err ETypeError
  else Ok (chain_loop (seq (Z.to_nat i) (Z.to_nat s)) pk_seed x adrs).

(** pq_logic/fips/fips205.py 369-387 (SLH_DSA.wots_pkgen): the loop over the chains. *)
Fixpoint pkgen_loop (is : list nat) (sk_seed pk_seed tmp sk_adrs adrs : bytes) : result (bytes * bytes) :=
  match is with
  | [] => Ok (tmp, adrs)
  | i :: r =>
      let sk_adrs := set_chain_address (Z.of_nat i) sk_adrs in
      let sk := prf pk_seed sk_seed sk_adrs in
      let adrs := set_chain_address (Z.of_nat i) adrs in
      let! (t, adrs) := chain sk 0 (w - 1) pk_seed adrs in
      pkgen_loop r sk_seed pk_seed (tmp ++ t) sk_adrs adrs
  end.
Definition wots_pkgen (sk_seed pk_seed adrs : bytes) : result (bytes * bytes) :=
  let sk_adrs := set_key_pair_address (get_key_pair_address adrs) (set_type_and_clear WOTS_PRF adrs) in
  let! (tmp, adrs) := pkgen_loop (seq 0 len) sk_seed pk_seed [] sk_adrs adrs in
  let wotspk_adrs := set_key_pair_address (get_key_pair_address adrs) (set_type_and_clear WOTS_PK adrs) in
  Ok (h_t pk_seed wotspk_adrs tmp, adrs).

(** The digits that are signed, with the checksum
    (pq_logic/fips/fips205.py 389-410 (SLH_DSA.wots_sign) and
    pq_logic/fips/fips205.py 412-431 (SLH_DSA.wots_pk_from_sig), the first statements of both). *)
Definition wots_digits (msg : bytes) : result (list Z) :=
  let! v := base_2b msg (lg_w p) len1 in
  let csum := fold_left (fun c x => c + (w - 1 - x)) v 0 in
  let csum := Z.shiftl csum (Z.of_nat (Nat.modulo (8 - Nat.modulo (len2 * lg_w p) 8) 8)) in
  let! c := base_2b (to_byte csum (Nat.div (len2 * lg_w p + 7) 8)) (lg_w p) len2 in
  Ok (v ++ c).

(** pq_logic/fips/fips205.py 389-410 (SLH_DSA.wots_sign) *)
Fixpoint wsign_loop (is : list nat) (v : list Z) (sk_seed pk_seed sg sk_adrs adrs : bytes) : result (bytes * bytes) :=
  match is with
  | [] => Ok (sg, adrs)
  | i :: r =>
      let sk_adrs := set_chain_address (Z.of_nat i) sk_adrs in
      let sk := prf pk_seed sk_seed sk_adrs in
      let adrs := set_chain_address (Z.of_nat i) adrs in
      let! (t, adrs) := chain sk 0 (nthz i v) pk_seed adrs in
      wsign_loop r v sk_seed pk_seed (sg ++ t) sk_adrs adrs
  end.
Definition wots_sign (msg sk_seed pk_seed adrs : bytes) : result (bytes * bytes) :=
  let! v := wots_digits msg in
  let sk_adrs := set_key_pair_address (get_key_pair_address adrs) (set_type_and_clear WOTS_PRF adrs) in
  wsign_loop (seq 0 len) v sk_seed pk_seed [] sk_adrs adrs.

(** pq_logic/fips/fips205.py 412-431 (SLH_DSA.wots_pk_from_sig) *)
Fixpoint wpk_loop (is : list nat) (v : list Z) (sg pk_seed tmp adrs : bytes) : result (bytes * bytes) :=
  match is with
  | [] => Ok (tmp, adrs)
  | i :: r =>
      let adrs := set_chain_address (Z.of_nat i) adrs in
      let! (t, adrs) := chain (slice (i * n p) ((i + 1) * n p) sg) (nthz i v) (w - 1 - nthz i v) pk_seed adrs in
      wpk_loop r v sg pk_seed (tmp ++ t) adrs
  end.
Definition wots_pk_from_sig (sg msg pk_seed adrs : bytes) : result (bytes * bytes) :=
  let! v := wots_digits msg in
  let! (tmp, adrs) := wpk_loop (seq 0 len) v sg pk_seed [] adrs in
  let wots_pk_adrs := set_key_pair_address (get_key_pair_address adrs) (set_type_and_clear WOTS_PK adrs) in
  Ok (h_t pk_seed wots_pk_adrs tmp, adrs).

(** pq_logic/fips/fips205.py 433-450 (SLH_DSA.xmss_node) *)
Fixpoint xmss_node (sk_seed : bytes) (i : Z) (z : nat) (pk_seed adrs : bytes) : result (bytes * bytes) :=
  if (hp p <? z)%nat || (i >=? 2 ^ Z.of_nat (hp p - z)) then Err ETypeError
  else
    match z with
    | O =>
        let adrs := set_type_and_clear WOTS_HASH adrs in
        let adrs := set_key_pair_address i adrs in
        wots_pkgen sk_seed pk_seed adrs
    | S z' =>
        let! (lnode, adrs) := xmss_node sk_seed (2 * i) z' pk_seed adrs in
        let! (rnode, adrs) := xmss_node sk_seed (2 * i + 1) z' pk_seed adrs in
        let adrs := set_type_and_clear TREE adrs in
        let adrs := set_tree_height (Z.of_nat z) adrs in
        let adrs := set_tree_index i adrs in
        Ok (h_h pk_seed adrs (lnode ++ rnode), adrs)
    end.

(** pq_logic/fips/fips205.py 452-465 (SLH_DSA.xmss_sign) *)
Fixpoint auth_loop (js : list nat) (sk_seed : bytes) (idx : Z) (pk_seed auth adrs : bytes) : result (bytes * bytes) :=
  match js with
  | [] => Ok (auth, adrs)
  | j :: r =>
      let! (x, adrs) := xmss_node sk_seed (Z.lxor (Z.shiftr idx (Z.of_nat j)) 1) j pk_seed adrs in
      auth_loop r sk_seed idx pk_seed (auth ++ x) adrs
  end.
Definition xmss_sign (msg sk_seed : bytes) (idx : Z) (pk_seed adrs : bytes) : result (bytes * bytes) :=
  let! (auth, adrs) := auth_loop (seq 0 (hp p)) sk_seed idx pk_seed [] adrs in
  let adrs := set_type_and_clear WOTS_HASH adrs in
  let adrs := set_key_pair_address idx adrs in
  let! (sg, adrs) := wots_sign msg sk_seed pk_seed adrs in
  Ok (sg ++ auth, adrs).

(** The climb along an authentication path: the loops of
    pq_logic/fips/fips205.py 467-491 (SLH_DSA.xmss_pk_from_sig) (over [k]) and
    pq_logic/fips/fips205.py 601-639 (SLH_DSA.fors_pk_from_sig) (over [j]), which are the same. *)
Fixpoint climb (ks : list nat) (idx : Z) (auth pk_seed node adrs : bytes) : bytes * bytes :=
  match ks with
  | [] => (node, adrs)
  | j :: r =>
      let adrs := set_tree_height (Z.of_nat j + 1) adrs in
      let auth_j := slice (j * n p) ((j + 1) * n p) auth in
      if Z.land (Z.shiftr idx (Z.of_nat j)) 1 =? 0 then
        let adrs := set_tree_index (get_tree_index adrs / 2) adrs in
        climb r idx auth pk_seed (h_h pk_seed adrs (node ++ auth_j)) adrs
      else
        let adrs := set_tree_index ((get_tree_index adrs - 1) / 2) adrs in
        climb r idx auth pk_seed (h_h pk_seed adrs (auth_j ++ node)) adrs
  end.

(** pq_logic/fips/fips205.py 467-491 (SLH_DSA.xmss_pk_from_sig) *)
Definition xmss_pk_from_sig (idx : Z) (sig_xmss msg pk_seed adrs : bytes) : result (bytes * bytes) :=
  let adrs := set_type_and_clear WOTS_HASH adrs in
  let adrs := set_key_pair_address idx adrs in
  let sg := slice 0 (len * n p) sig_xmss in
  let auth := skipn (len * n p) sig_xmss in
  let! (node_0, adrs) := wots_pk_from_sig sg msg pk_seed adrs in
  let adrs := set_type_and_clear TREE adrs in
  let adrs := set_tree_index idx adrs in
  Ok (climb (seq 0 (hp p)) idx auth pk_seed node_0 adrs).

(** pq_logic/fips/fips205.py 493-519 (SLH_DSA.ht_sign): the loop over the layers [js]. *)
Fixpoint ht_sign_loop (js : list nat) (sk_seed pk_seed : bytes) (i_tree : Z) (root sig_ht adrs : bytes) : result bytes :=
  match js with
  | [] => Ok sig_ht
  | j :: r =>
      let i_leaf := Z.land i_tree (Z.shiftl 1 (Z.of_nat (hp p)) - 1) in
      let i_tree := Z.shiftr i_tree (Z.of_nat (hp p)) in
      let adrs := set_layer_address (Z.of_nat j) adrs in
      let adrs := set_tree_address i_tree adrs in
      let! (sig_tmp, adrs) := xmss_sign root sk_seed i_leaf pk_seed adrs in
      let sig_ht := sig_ht ++ sig_tmp in
      if (j <? d p - 1)%nat then
        let! (root, adrs) := xmss_pk_from_sig i_leaf sig_tmp root pk_seed adrs in
        ht_sign_loop r sk_seed pk_seed i_tree root sig_ht adrs
      else ht_sign_loop r sk_seed pk_seed i_tree root sig_ht adrs
  end.
Definition ht_sign (msg sk_seed pk_seed : bytes) (i_tree i_leaf : Z) : result bytes :=
  let adrs := set_tree_address i_tree new_adrs in
  let! (sig_tmp, adrs) := xmss_sign msg sk_seed i_leaf pk_seed adrs in
  let! (root, adrs) := xmss_pk_from_sig i_leaf sig_tmp msg pk_seed adrs in
  ht_sign_loop (seq 1 (d p - 1)) sk_seed pk_seed i_tree root sig_tmp adrs.

(** pq_logic/fips/fips205.py 521-549 (SLH_DSA.ht_verify) *)
Fixpoint ht_verify_loop (js : list nat) (sig_ht pk_seed : bytes) (i_tree : Z) (node adrs : bytes) : result bytes :=
  match js with
  | [] => Ok node
  | j :: r =>
      let i_leaf := Z.land i_tree (Z.shiftl 1 (Z.of_nat (hp p)) - 1) in
      let i_tree := Z.shiftr i_tree (Z.of_nat (hp p)) in
      let adrs := set_layer_address (Z.of_nat j) adrs in
      let adrs := set_tree_address i_tree adrs in
      let sig_tmp := slice (j * (hp p + len) * n p) ((j + 1) * (hp p + len) * n p) sig_ht in
      let! (node, adrs) := xmss_pk_from_sig i_leaf sig_tmp node pk_seed adrs in
      ht_verify_loop r sig_ht pk_seed i_tree node adrs
  end.
Definition ht_verify (msg sig_ht pk_seed : bytes) (i_tree i_leaf : Z) (pk_root : bytes) : result bool :=
  let adrs := set_tree_address i_tree new_adrs in
  let sig_tmp := slice 0 ((hp p + len) * n p) sig_ht in
  let! (node, adrs) := xmss_pk_from_sig i_leaf sig_tmp msg pk_seed adrs in
  let! node := ht_verify_loop (seq 1 (d p - 1)) sig_ht pk_seed i_tree node adrs in
  Ok (bytes_eqb node pk_root).

(** pq_logic/fips/fips205.py 551-559 (SLH_DSA.fors_sk_gen) *)
Definition fors_sk_gen (sk_seed pk_seed adrs : bytes) (idx : Z) : bytes :=
  let sk_adrs := set_key_pair_address (get_key_pair_address adrs) (set_type_and_clear FORS_PRF adrs) in
  prf pk_seed sk_seed (set_tree_index idx sk_adrs).

(** pq_logic/fips/fips205.py 561-579 (SLH_DSA.fors_node) *)
Fixpoint fors_node (sk_seed : bytes) (i : Z) (z : nat) (pk_seed adrs : bytes) : result (bytes * bytes) :=
  if (a p <? z)%nat || (i >=? Z.shiftl (Z.of_nat (k p)) (Z.of_nat (a p - z))) then Err ETypeError
  else
    match z with
    | O =>
        let sk := fors_sk_gen sk_seed pk_seed adrs i in
        let adrs := set_tree_height 0 adrs in
        let adrs := set_tree_index i adrs in
        Ok (h_f pk_seed adrs sk, adrs)
    | S z' =>
        let! (lnode, adrs) := fors_node sk_seed (2 * i) z' pk_seed adrs in
        let! (rnode, adrs) := fors_node sk_seed (2 * i + 1) z' pk_seed adrs in
        let adrs := set_tree_height (Z.of_nat z) adrs in
        let adrs := set_tree_index i adrs in
        Ok (h_h pk_seed adrs (lnode ++ rnode), adrs)
    end.

(** pq_logic/fips/fips205.py 581-599 (SLH_DSA.fors_sign): the inner and the outer loop. *)
Fixpoint fors_auth_loop (js : list nat) (sk_seed : bytes) (i : nat) (idx : Z) (pk_seed sg adrs : bytes) : result (bytes * bytes) :=
  match js with
  | [] => Ok (sg, adrs)
  | j :: r =>
      let s := Z.lxor (Z.shiftr idx (Z.of_nat j)) 1 in
      let! (x, adrs) := fors_node sk_seed (Z.shiftl (Z.of_nat i) (Z.of_nat (a p - j)) + s) j pk_seed adrs in
      fors_auth_loop r sk_seed i idx pk_seed (sg ++ x) adrs
  end.
Fixpoint fors_sign_loop (is : list nat) (indices : list Z) (sk_seed pk_seed sg adrs : bytes) : result (bytes * bytes) :=
  match is with
  | [] => Ok (sg, adrs)
  | i :: r =>
      let idx := nthz i indices in
      let sg := sg ++ fors_sk_gen sk_seed pk_seed adrs (Z.shiftl (Z.of_nat i) (Z.of_nat (a p)) + idx) in
      let! (sg, adrs) := fors_auth_loop (seq 0 (a p)) sk_seed i idx pk_seed sg adrs in
      fors_sign_loop r indices sk_seed pk_seed sg adrs
  end.
Definition fors_sign (md sk_seed pk_seed adrs : bytes) : result (bytes * bytes) :=
  let! indices := base_2b md (a p) (k p) in
  fors_sign_loop (seq 0 (k p)) indices sk_seed pk_seed [] adrs.

(** pq_logic/fips/fips205.py 601-639 (SLH_DSA.fors_pk_from_sig) *)
Fixpoint fors_pk_loop (is : list nat) (indices : list Z) (sig_fors pk_seed root adrs : bytes) : bytes * bytes :=
  match is with
  | [] => (root, adrs)
  | i :: r =>
      let sk := slice (i * (a p + 1) * n p) ((i * (a p + 1) + 1) * n p) sig_fors in
      let adrs := set_tree_height 0 adrs in
      let adrs := set_tree_index (Z.shiftl (Z.of_nat i) (Z.of_nat (a p)) + nthz i indices) adrs in
      let node_0 := h_f pk_seed adrs sk in
      let auth := slice ((i * (a p + 1) + 1) * n p) ((i + 1) * (a p + 1) * n p) sig_fors in
      let '(node_0, adrs) := climb (seq 0 (a p)) (nthz i indices) auth pk_seed node_0 adrs in
      fors_pk_loop r indices sig_fors pk_seed (root ++ node_0) adrs
  end.
Definition fors_pk_from_sig (sig_fors md pk_seed adrs : bytes) : result (bytes * bytes) :=
  let! indices := base_2b md (a p) (k p) in
  let '(root, adrs) := fors_pk_loop (seq 0 (k p)) indices sig_fors pk_seed [] adrs in
  let fors_pk_adrs := set_key_pair_address (get_key_pair_address adrs) (set_type_and_clear FORS_ROOTS adrs) in
  Ok (h_t pk_seed fors_pk_adrs root, adrs).

(** pq_logic/fips/fips205.py 641-655 (SLH_DSA.slh_keygen_internal) *)
Definition slh_keygen_internal (sk_seed sk_prf pk_seed : bytes) : result (bytes * bytes) :=
  let adrs := set_layer_address (Z.of_nat (d p) - 1) new_adrs in
  let! (pk_root, adrs) := xmss_node sk_seed 0 (hp p) pk_seed adrs in
  Ok (pk_seed ++ pk_root, sk_seed ++ sk_prf ++ pk_seed ++ pk_root).

(** pq_logic/fips/fips205.py 657-667 (SLH_DSA.split_digest) *)
Definition split_digest (digest : bytes) : result (bytes * Z * Z) :=
  let ka1 := Nat.div (k p * a p + 7) 8 in
  let md := slice 0 ka1 digest in
  let hd := Nat.div (h p) (d p) in
  let hhd := (h p - hd)%nat in
  let ka2 := (ka1 + Nat.div (hhd + 7) 8)%nat in
  let! t := to_int (slice ka1 ka2 digest) (Nat.div (hhd + 7) 8) in
  let ka3 := (ka2 + Nat.div (hd + 7) 8)%nat in
  let! l := to_int (slice ka2 ka3 digest) (Nat.div (hd + 7) 8) in
  Ok (md, t mod 2 ^ Z.of_nat hhd, l mod 2 ^ Z.of_nat hd).

(** pq_logic/fips/fips205.py 669-702 (SLH_DSA.slh_sign_internal) *)
Definition slh_sign_internal (msg sk : bytes) (addrnd : option bytes) : result bytes :=
  let sk_seed := slice 0 (n p) sk in
  let sk_prf := slice (n p) (2 * n p) sk in
  let pk_seed := slice (2 * n p) (3 * n p) sk in
  let pk_root := skipn (3 * n p) sk in
  let addrnd := match addrnd with None => pk_seed | Some x => x end in
  let r := prf_msg sk_prf addrnd msg in
  let digest := h_msg r pk_seed pk_root msg in
  let! (md, i_tree, i_leaf) := split_digest digest in
  let adrs := set_tree_address i_tree new_adrs in
  let adrs := set_type_and_clear FORS_TREE adrs in
  let adrs := set_key_pair_address i_leaf adrs in
  let! (sig_fors, adrs) := fors_sign md sk_seed pk_seed adrs in
  let! (pk_fors, adrs) := fors_pk_from_sig sig_fors md pk_seed adrs in
  let! sig_ht := ht_sign pk_fors sk_seed pk_seed i_tree i_leaf in
  Ok (r ++ sig_fors ++ sig_ht).

(** pq_logic/fips/fips205.py 704-725 (SLH_DSA.slh_verify_internal) *)
Definition slh_verify_internal (msg sg pk : bytes) : result bool :=
  if negb (length sg =? sig_sz)%nat || negb (length pk =? pk_sz)%nat then Ok false
  else
    let pk_seed := slice 0 (n p) pk in
    let pk_root := skipn (n p) pk in
    let r := slice 0 (n p) sg in
    let sig_fors := slice (n p) ((1 + k p * (1 + a p)) * n p) sg in
    let sig_ht := skipn ((1 + k p * (1 + a p)) * n p) sg in
    let digest := h_msg r pk_seed pk_root msg in
    let! (md, i_tree, i_leaf) := split_digest digest in
    let adrs := set_tree_address i_tree new_adrs in
    let adrs := set_type_and_clear FORS_TREE adrs in
    let adrs := set_key_pair_address i_leaf adrs in
    let! (pk_fors, adrs) := fors_pk_from_sig sig_fors md pk_seed adrs in
    ht_verify pk_fors sig_ht pk_seed i_tree i_leaf pk_root.

(** pq_logic/fips/fips205.py 106-117 (integer_to_bytes) for one byte. *)
Definition byte1 (x : Z) : bytes := [Z.land x 255].
(** The string signed for a message and a context, fips205.py 757 and 808. *)
Definition pure_msg (ctx msg : bytes) : bytes := byte1 0 ++ byte1 (Z.of_nat (length ctx)) ++ ctx ++ msg.

(** pq_logic/fips/fips205.py 743-759 (SLH_DSA.slh_sign) without [param]; [Ok None] is [return None]. *)
Definition slh_sign (msg ctx sk : bytes) (addrnd : option bytes) : result (option bytes) :=
  if (255 <? length ctx)%nat then Ok None
  else let! s := slh_sign_internal (pure_msg ctx msg) sk addrnd in Ok (Some s).

(** pq_logic/fips/fips205.py 793-809 (SLH_DSA.slh_verify) without [param]. *)
Definition slh_verify (msg sg ctx pk : bytes) : result bool :=
  if (255 <? length ctx)%nat then Ok false
  else slh_verify_internal (pure_msg ctx msg) sg pk.

(** The names of pre-hash functions: those compared in hash_slh_sign, those compared in
    hash_ml_dsa_verify, and every other string. *)
Inductive ph_name := Lower (x : ph_alg) | Upper (x : ph_alg) | OtherName
with ph_alg := Sha256 | Sha512 | Shake128 | Shake256.
(** The object identifiers and digests of the branches (fips205.py 770-787, 831-848). *)
Definition ph_digest (x : ph_alg) (msg : bytes) : bytes * bytes :=
  match x with
  | Sha256 => ([6; 9; 96; 134; 72; 1; 101; 3; 4; 2; 1], r_sha256 hs msg)
  | Sha512 => ([6; 9; 96; 134; 72; 1; 101; 3; 4; 2; 3], r_sha512 hs msg)
  | Shake128 => ([6; 9; 96; 134; 72; 1; 101; 3; 4; 2; 11], r_shake128 hs msg 32)
  | Shake256 => ([6; 9; 96; 134; 72; 1; 101; 3; 4; 2; 12], r_shake256 hs msg 64)
  end.
Definition pre_msg (ctx : bytes) (x : ph_alg) (msg : bytes) : bytes :=
  let '(oid, phm) := ph_digest x msg in byte1 1 ++ byte1 (Z.of_nat (length ctx)) ++ ctx ++ oid ++ phm.

(** pq_logic/fips/fips205.py 762-790 (SLH_DSA.hash_slh_sign): accepts the lower case names; note the order of the
    arguments of slh_sign_internal. *)
Definition hash_slh_sign (msg ctx : bytes) (ph : ph_name) (sk : bytes) (rnd : option bytes) : result (option bytes) :=
  if (255 <? length ctx)%nat then Err EValueError
  else
    match ph with
    | Lower x => let! s := slh_sign_internal sk (pre_msg ctx x msg) rnd in Ok (Some s)
    | _ => Ok None
    end.

(** pq_logic/fips/fips205.py 812-850 (SLH_DSA.hash_ml_dsa_verify) (Algorithm 25): accepts the upper case names. *)
Definition hash_slh_verify (pk msg sg ctx : bytes) (ph : ph_name) : result bool :=
  if (255 <? length ctx)%nat then Err EValueError
  else
    match ph with
    | Upper x => slh_verify_internal (pre_msg ctx x msg) sg pk
    | _ => Err EValueError
    end.
End Hashes.
