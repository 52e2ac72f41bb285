(** Model of the stateful hash-based signature keys: pq_logic/keys/stateful_sig_keys.py (HSS, XMSS, XMSS^MT),
    pq_logic/keys/hss_validation.py, and the functions that read or change the signature index
    (resources/keyutils.py, resources/utils.py).

    The hash trees themselves are computed by pyhsslms and liboqs, which are not part of the repository: the fields of
    [hss_lib] and [xmss_lib]. *)
From Coq Require Import String Ascii.
From Verif Require Import Prelude.
From Verif Require HdrModel CompLoadModel.
Open Scope Z_scope.
Local Notation length := List.length.

Definition of_opt {A} (o : option A) (e : exn) : result A := match o with Some x => Ok x | None => Err e end.
(** [int.from_bytes(b, "big")]. *)
Definition from_be (b : bytes) : Z := fold_left (fun t x => 256 * t + x) b 0.
(** The digits of [int.to_bytes(k, "little")] and [int.to_bytes(k, "big")], without the range check. *)
Fixpoint le (k : nat) (x : Z) : bytes := match k with O => [] | S k' => x mod 256 :: le k' (x / 256) end.
Definition be (k : nat) (x : Z) : bytes := rev (le k x).
(** [int.to_bytes(k, "big")]: OverflowError when the number does not fit. *)
Definition to_be (k : nat) (x : Z) : result bytes :=
  if (0 <=? x) && (x <? 256 ^ Z.of_nat k) then Ok (be k x) else Err EOverflow.
(** Python's [l[i]]. *)
Definition py_index {A} (l : list A) (i : Z) : result A :=
  let j := if i <? 0 then i + Z.of_nat (length l) else i in
  if (0 <=? j) && (j <? Z.of_nat (length l)) then of_opt (nth_error l (Z.to_nat j)) EIndexError else Err EIndexError.
(** [math.ceil(h / 8)]. *)
Definition ceil8 (h : Z) : nat := Z.to_nat ((h + 7) / 8).

(** ** LMS and LM-OTS parameter names *)
Definition families : list string := ["sha256"; "shake"]%string.
Definition digests : list (string * Z) := [("24", 24); ("32", 32)]%string.
Definition heights : list (string * Z) := [("5", 5); ("10", 10); ("15", 15); ("20", 20); ("25", 25)]%string.
Definition windows : list (string * Z) := [("1", 1); ("2", 2); ("4", 4); ("8", 8)]%string.

(** The names of pq_logic/keys/hss_validation.py 30-33 (LMOTS_SHAKE_NAMES, LMS_SHA256_NAMES, LMS_SHAKE_NAMES,
    LMOTS_SHA256_NAMES) with what the regular expressions of 38-39 read from them: family, digest size, and height or
    Winternitz parameter. *)
Definition lms_table : list (string * (string * Z * Z)) :=
  flat_map (fun f => flat_map (fun m => map (fun h =>
    (("lms_" ++ f ++ "_m" ++ fst m ++ "_h" ++ fst h)%string, (f, snd m, snd h))) heights) digests) families.
Definition lmots_table : list (string * (string * Z * Z)) :=
  flat_map (fun f => flat_map (fun n => map (fun w =>
    (("lmots_" ++ f ++ "_n" ++ fst n ++ "_w" ++ fst w)%string, (f, snd n, snd w))) windows) digests) families.

Definition lookup {A} (l : list (string * A)) (x : string) : option A :=
  match find (fun p => String.eqb (fst p) x) l with Some p => Some (snd p) | None => None end.
Definition newline : string := String (ascii_of_nat 10) EmptyString.
(** [re.match] of a name pattern ending in [$], which also matches before a final newline. *)
Definition re_lookup {A} (l : list (string * A)) (x : string) : option A :=
  match find (fun p => String.eqb (fst p) x || String.eqb (fst p ++ newline) x) l with
  | Some p => Some (snd p) | None => None end.

(** pq_logic/keys/hss_validation.py 49-55 (_parse_lmots) *)
Definition parse_lmots (name : string) : result (string * Z * Z) := of_opt (re_lookup lmots_table name) EInvalidKeyData.
(** pq_logic/keys/hss_validation.py 58-64 (_parse_lms) *)
Definition parse_lms (name : string) : result (string * Z * Z) := of_opt (re_lookup lms_table name) EInvalidKeyData.

(** The messages collected by the validation; the texts are not modelled. *)
Inductive issue := UnknownLms | UnknownLmots | PairFamily | PairDigest | BadWindow | BadHeight | BadDepth
  | LevelFamily | LevelDigest | LevelWindow.

Definition zmem (x : Z) (l : list Z) : bool := existsb (Z.eqb x) l.
Definition when {A} (b : bool) (x : A) : list A := if b then [x] else [].

(** pq_logic/keys/hss_validation.py 67-93 (_validate_lms_lmots_pair) *)
Definition validate_pair (lms lmots : string) : result (list issue) :=
  let unknown :=
    when (negb (existsb (String.eqb lms) (map fst lms_table))) UnknownLms ++
    when (negb (existsb (String.eqb lmots) (map fst lmots_table))) UnknownLmots in
  match unknown with
  | _ :: _ => Ok unknown
  | [] =>
      let! (f, m, h) := parse_lms lms in
      let! (f', n, w) := parse_lmots lmots in
      Ok (when (negb (String.eqb f f')) PairFamily ++ when (negb (m =? n)) PairDigest ++
          when (negb (zmem w [1; 2; 4; 8])) BadWindow ++ when (negb (zmem h [5; 10; 15; 20; 25])) BadHeight)
  end.

(** pq_logic/keys/hss_validation.py 42-46 (_normalise_pairs) *)
Definition normalise (levels : list (string * string)) : list (string * string) :=
  map (fun p => (CompLoadModel.lower (fst p), CompLoadModel.lower (snd p))) levels.

Fixpoint concatM {A B} (f : A -> result (list B)) (l : list A) : result (list B) :=
  match l with [] => Ok [] | x :: r => let! y := f x in let! t := concatM f r in Ok (y ++ t) end.

(** pq_logic/keys/hss_validation.py 96-116 (_validate_hss_configuration) *)
Definition validate_configuration (levels : list (string * string)) : result (list issue) :=
  let c := normalise levels in
  let! t := concatM (fun p => validate_pair (fst p) (snd p)) c in
  Ok (when (negb ((1 <=? length c)%nat && (length c <=? 8)%nat)) BadDepth ++ t).

(** pq_logic/keys/hss_validation.py 119-144 (_check_digest_size_mismatch) *)
Definition check_digest (levels : list (string * string)) : result (list issue) :=
  match normalise levels with
  | [] => Ok []
  | (_, first) :: r =>
      let! (_, n0, _) := parse_lmots first in
      concatM (fun p => let! (_, n, _) := parse_lmots (snd p) in Ok (when (negb (n =? n0)) LevelDigest)) r
  end.
(** pq_logic/keys/hss_validation.py 147-172 (_check_hash_family_mismatch) *)
Definition check_family (levels : list (string * string)) : result (list issue) :=
  match normalise levels with
  | [] => Ok []
  | (first, _) :: r =>
      let! (f0, _, _) := parse_lms first in
      concatM (fun p => let! (f, _, _) := parse_lms (fst p) in Ok (when (negb (String.eqb f f0)) LevelFamily)) r
  end.
(** pq_logic/keys/hss_validation.py 175-200 (_check_winternitz_parameter_mismatch) *)
Definition check_window (levels : list (string * string)) : result (list issue) :=
  match normalise levels with
  | [] => Ok []
  | (_, first) :: r =>
      let! (_, _, w0) := parse_lmots first in
      concatM (fun p => let! (_, _, w) := parse_lmots (snd p) in Ok (when (negb (w =? w0)) LevelWindow)) r
  end.

(** pq_logic/keys/hss_validation.py 203-222 (validate_hss_key_levels) *)
Definition validate_hss_key_levels (levels : list (string * string)) (enforce_lw : bool) : result unit :=
  let! i := validate_configuration levels in
  let! j := if negb enforce_lw && (1 <? length levels)%nat
            then let! a := check_family levels in
                 let! b := check_digest levels in
                 let! c := check_window levels in Ok (a ++ b ++ c)
            else Ok [] in
  match i ++ j with [] => Ok tt | _ :: _ => Err EInvalidKeyData end.

(** ** The table of HSS algorithms *)
(** pq_logic/keys/stateful_sig_keys.py 116-137 (lms_algorithm_type_dict) and 97-114 (lmots_algorithm_type_dict). The
    module takes the codes from attributes of the same names of pyhsslms (188-200); these are the IANA codes too. *)
Definition lms_codes : list (string * Z) :=
  [("lms_sha256_m32_h5", 5); ("lms_sha256_m32_h10", 6); ("lms_sha256_m32_h15", 7); ("lms_sha256_m32_h20", 8);
   ("lms_sha256_m32_h25", 9); ("lms_sha256_m24_h5", 10); ("lms_sha256_m24_h10", 11); ("lms_sha256_m24_h15", 12);
   ("lms_sha256_m24_h20", 13); ("lms_sha256_m24_h25", 14); ("lms_shake_m32_h5", 15); ("lms_shake_m32_h10", 16);
   ("lms_shake_m32_h15", 17); ("lms_shake_m32_h20", 18); ("lms_shake_m32_h25", 19); ("lms_shake_m24_h5", 20);
   ("lms_shake_m24_h10", 21); ("lms_shake_m24_h15", 22); ("lms_shake_m24_h20", 23); ("lms_shake_m24_h25", 24)]%string.
Definition lmots_codes : list (string * Z) :=
  [("lmots_sha256_n32_w1", 1); ("lmots_sha256_n32_w2", 2); ("lmots_sha256_n32_w4", 3); ("lmots_sha256_n32_w8", 4);
   ("lmots_sha256_n24_w1", 5); ("lmots_sha256_n24_w2", 6); ("lmots_sha256_n24_w4", 7); ("lmots_sha256_n24_w8", 8);
   ("lmots_shake_n32_w1", 9); ("lmots_shake_n32_w2", 10); ("lmots_shake_n32_w4", 11); ("lmots_shake_n32_w8", 12);
   ("lmots_shake_n24_w1", 13); ("lmots_shake_n24_w2", 14); ("lmots_shake_n24_w4", 15); ("lmots_shake_n24_w8", 16)]%string.

(** pyhsslms.lms_params and lmots_params: the parameters a code stands for, that is those its name spells, and the
    number of Winternitz chains of RFC 8554 table 1 and SP 800-208. *)
Definition chains (n w : Z) : Z :=
  if n =? 32 then (if w =? 1 then 265 else if w =? 2 then 133 else if w =? 4 then 67 else 34)
  else (if w =? 1 then 200 else if w =? 2 then 101 else if w =? 4 then 51 else 26).

Record details := { d_hash : string; d_lms : bytes; d_lmots : bytes; d_h : Z; d_w : Z; d_n : Z;
  d_ots_len : Z; d_sig_len : Z; d_pub_len : Z; d_max : Z }.

(** pyhsslms.LenI: the length of the tree identifier. *)
Definition LenI : Z := 16.

(** pq_logic/keys/stateful_sig_keys.py 206-231 (_build_hss_algorithms) *)
Definition hss_algorithms : list (string * details) :=
  flat_map (fun a => flat_map (fun b =>
    match lookup lms_codes (fst a), lookup lmots_codes (fst b) with
    | Some ca, Some cb =>
        let '(hash, m, h) := snd a in
        let '(hash', n, w) := snd b in
        if negb (String.eqb hash' hash) || negb (n =? m) then [] else
        let ots := 4 + n * (chains n w + 1) in
        [(("hss_" ++ fst a ++ "_" ++ fst b)%string,
          {| d_hash := hash; d_lms := be 4 ca; d_lmots := be 4 cb; d_h := h; d_w := w; d_n := n;
             d_ots_len := ots; d_sig_len := 4 + ots + 4 + h * m;
             d_pub_len := 8 + LenI + m; d_max := 2 ^ h |})]
    | _, _ => []
    end) lmots_table) lms_table.
Definition hss_details (name : string) : option details := lookup hss_algorithms name.

(** pq_logic/keys/stateful_sig_keys.py 235 (DEFAULT_HSS_ALGORITHM) *)
Definition default_hss : string := "hss_lms_sha256_m32_h5_lmots_sha256_n32_w8".
(** pq_logic/keys/stateful_sig_keys.py 269-276 (_get_and_chck_hss_name) *)
Definition hss_name (name : string) : string :=
  if String.eqb name "" then default_hss
  else if String.eqb (CompLoadModel.lower name) "hss" then default_hss else CompLoadModel.lower name.

(** pq_logic/keys/stateful_sig_keys.py 279-284 (_compute_hss_signature_length) *)
Definition hss_signature_length (d : details) (levels : Z) : Z :=
  4 + Z.max (levels - 1) 0 * (d_sig_len d + d_pub_len d) + d_sig_len d.

(** pq_logic/keys/stateful_sig_keys.py 202-203 (PYHSS_LMS_NAME_BY_CODE, PYHSS_LMOTS_NAME_BY_CODE) *)
Definition name_by_code (codes : list (string * Z)) (c : bytes) : option string :=
  match find (fun p => bytes_eqb (be 4 (snd p)) c) codes with Some p => Some (fst p) | None => None end.

(** pq_logic/keys/stateful_sig_keys.py 324-362 (build_hss_name_from_codes): private-use and unassigned codes raise the same
    exception with different texts. *)
Definition build_hss_name_from_codes (lms lmots : bytes) : result string :=
  let! a := of_opt (name_by_code lms_codes lms) EInvalidKeyData in
  let! b := of_opt (name_by_code lmots_codes lmots) EInvalidKeyData in
  let name := ("hss_" ++ a ++ "_" ++ b)%string in
  let! _ := of_opt (hss_details name) EInvalidKeyData in Ok name.

(** ** HSS keys *)
(** One LMS tree inside a pyhsslms private key: type codes, next leaf [q], and everything else. *)
Record tree := { t_lms : bytes; t_lmots : bytes; t_q : Z; t_rest : bytes }.

(** pyhsslms: parsing a public key (levels, type codes of the root tree), a signature (levels, leaf numbers of the
    signed public keys, leaf number of the message signature) and a private key (levels and trees); [None] is a
    ValueError. [hl_ser], [hl_pub_of], [hl_max], [hl_tree_max] and [hl_pub_max] are HssPrivateKey.serialize, the
    serialized publicKey(), and the maxSignatures() of the private key, one of its trees, and the public key. *)
Record hss_lib := {
  hl_pub : bytes -> option (Z * bytes * bytes);
  hl_sig : bytes -> option (Z * list Z * Z);
  hl_prv : bytes -> option (Z * list tree);
  hl_ser : Z * list tree -> bytes;
  hl_pub_of : Z * list tree -> bytes;
  hl_max : Z * list tree -> Z;
  hl_tree_max : tree -> Z
}.

Record hss_pub := { hp_name : string; hp_raw : bytes; hp_levels : Z; hp_lms : bytes; hp_lmots : bytes }.

(** pq_logic/keys/stateful_sig_keys.py 909-916 (HSSPublicKey._check_name) and
    pq_logic/keys/stateful_sig_keys.py 918-939 (HSSPublicKey._initialize_key) *)
Definition hss_public (L : hss_lib) (alg_name : string) (raw : bytes) : result hss_pub :=
  let name := hss_name alg_name in
  let! d := of_opt (hss_details name) EValueError in
  let! (lv, lms, lmots) := of_opt (hl_pub L raw) EInvalidKeyData in
  let! _ := guard (Z.of_nat (length raw) =? 4 + d_pub_len d) EInvalidKeyData in
  let! canonical := build_hss_name_from_codes lms lmots in
  let! _ := guard (String.eqb canonical name) EInvalidKeyData in
  Ok {| hp_name := name; hp_raw := raw; hp_levels := lv; hp_lms := lms; hp_lmots := lmots |}.

(** pq_logic/keys/stateful_sig_keys.py 946-975 (HSSPublicKey.from_public_bytes): the parser's ValueError is not translated. *)
Definition hss_from_public_bytes (L : hss_lib) (raw : bytes) : result hss_pub :=
  let! (_, lms, lmots) := of_opt (hl_pub L raw) EValueError in
  let! name := build_hss_name_from_codes lms lmots in
  hss_public L name raw.

(** pq_logic/keys/stateful_sig_keys.py 287-321 (compute_hss_signature_index); the key is used through its name and levels only. *)
Fixpoint total_index (mx : Z) (qs : list Z) (acc : Z) : result Z :=
  match qs with
  | [] => Ok acc
  | v :: r => if v >=? mx then Err EInvalidSignature else total_index mx r (acc * mx + v)
  end.
Definition compute_hss_signature_index (L : hss_lib) (sig : bytes) (name : string) (levels : Z) : result Z :=
  let! d := of_opt (hss_details name) EValueError in
  let! (lv, qs, q) := of_opt (hl_sig L sig) EValueError in
  let indices := qs ++ [q] in
  let! _ := guard (Z.of_nat (length indices) =? lv) EInvalidSignature in
  let! t := total_index (d_max d) indices 0 in
  let! _ := guard (levels =? lv) EInvalidSignature in
  Ok t.

(** pq_logic/keys/stateful_sig_keys.py 1031-1037 (HSSPublicKey.get_leaf_index) *)
Definition hss_leaf_index (L : hss_lib) (sig : bytes) : result Z :=
  let! (_, _, q) := of_opt (hl_sig L sig) EValueError in Ok q.

(** pq_logic/keys/stateful_sig_keys.py 1051-1053 (HSSPublicKey.sig_size) *)
Definition hss_sig_size (K : hss_pub) : result Z :=
  let! d := of_opt (hss_details (hp_name K)) EKeyError in Ok (hss_signature_length d (hp_levels K)).

(** pq_logic/keys/stateful_sig_keys.py 1065-1086 (HSSPublicKey.get_level_names) *)
Definition get_level_names (K : hss_pub) : result (list (string * string)) :=
  let! a := of_opt (name_by_code lms_codes (hp_lms K)) EInvalidKeyData in
  let! b := of_opt (name_by_code lmots_codes (hp_lmots K)) EInvalidKeyData in
  Ok (repeat (a, b) (Z.to_nat (hp_levels K))).

(** pq_logic/keys/hss_validation.py 225-239 (validate_hss_key), for a public key; for a private key the public key is taken
    first. *)
Definition validate_hss_key (K : hss_pub) (allow_diff : bool) : result unit :=
  let! l := get_level_names K in validate_hss_key_levels l allow_diff.

(** The HSSPrivateKey object: name, the pyhsslms object, and the leaf numbers recorded by sign(). *)
Record hss_priv := { hk_name : string; hk_state : Z * list tree; hk_used : list bytes }.

(** pq_logic/keys/stateful_sig_keys.py 1131-1164 (HSSPrivateKey._initialize_key), with private key bytes; [levels] as passed to
    the constructor. *)
Definition hss_private (L : hss_lib) (alg_name : string) (raw : bytes) (levels : option Z) : result hss_priv :=
  let name := hss_name alg_name in
  let! _ := of_opt (hss_details name) EValueError in
  let target := match levels with Some l => if l =? 0 then 1 else l | None => 1 end in
  let! (lv, trees) := of_opt (hl_prv L raw) EInvalidKeyData in
  let! _ := guard (lv =? target) EInvalidKeyData in
  let! t := py_index trees 0 in
  let! n := build_hss_name_from_codes (t_lms t) (t_lmots t) in
  let! _ := guard (String.eqb n name) EInvalidKeyData in
  Ok {| hk_name := name; hk_state := (lv, trees); hk_used := [] |}.

(** pq_logic/keys/stateful_sig_keys.py 1183-1187 (HSSPrivateKey.from_private_bytes) *)
Definition hss_from_private_bytes (L : hss_lib) (raw : bytes) : result hss_priv :=
  let! (lv, trees) := of_opt (hl_prv L raw) EValueError in
  let! t := py_index trees 0 in
  let! n := build_hss_name_from_codes (t_lms t) (t_lmots t) in
  hss_private L n raw (Some lv).

(** The test at the head of resources/keyutils.py 1262-1357 (modify_pq_stateful_sig_private_key) that picks a recorded key. *)
Definition pick_used (used : list bytes) (index : option Z) : result bytes :=
  let! _ := match index with
            | Some i => guard (negb (Z.of_nat (length used) <? i)) EValueError
            | None => Ok tt end in
  py_index used (match index with Some i => i | None => -1 end).

(** resources/keyutils.py 1262-1357 (modify_pq_stateful_sig_private_key) for an HSS key. *)
Definition set_q (q : Z) (t : tree) : tree := {| t_lms := t_lms t; t_lmots := t_lmots t; t_q := q; t_rest := t_rest t |}.
Definition modify_hss (L : hss_lib) (K : hss_priv) (last_index : bool) (index : option Z) (used_index : bool)
  : result hss_priv :=
  if used_index then let! b := pick_used (hk_used K) index in hss_from_private_bytes L b
  else
    let! M := hss_from_private_bytes L (hl_ser L (hk_state K)) in
    let '(lv, trees) := hk_state M in
    let target := match index with
                  | Some i => if last_index then hl_max L (lv, trees) - 1 else i
                  | None => hl_max L (lv, trees) end in
    let trees' :=
      if target >=? hl_max L (lv, trees) then map (fun t => set_q (hl_tree_max L t) t) trees
      else if 0 <? lv then match trees with [] => [] | t :: r => set_q target t :: r end
      else trees in
    hss_from_private_bytes L (hl_ser L (lv, trees')).

(** ** XMSS and XMSS^MT *)
(** A parameter set name by its parts: hash, height, layers (0 for XMSS) and output bits, as in
    "XMSSMT-SHA2_20/2_256". *)
Inductive xhash := Sha2 | ShakeP | Shake256P.
Scheme Equality for xhash.
Record xset := { xs_hash : xhash; xs_h : Z; xs_d : Z; xs_bits : Z }.
Definition xset_eqb (a b : xset) : bool :=
  xhash_beq (xs_hash a) (xs_hash b) && (xs_h a =? xs_h b) && (xs_d a =? xs_d b) && (xs_bits a =? xs_bits b).

Definition xm (h : xhash) (ht bits : Z) : xset := {| xs_hash := h; xs_h := ht; xs_d := 0; xs_bits := bits |}.
Definition xmt (h : xhash) (bits ht d : Z) : xset := {| xs_hash := h; xs_h := ht; xs_d := d; xs_bits := bits |}.
Definition number {A} (l : list A) : list (Z * A) := combine (map Z.of_nat (seq 1 (length l))) l.

(** pq_logic/keys/stateful_sig_keys.py 1245-1267 (XMSS_ALG_IDS) *)
Definition xmss_ids : list (Z * xset) :=
  number (flat_map (fun p => map (fun ht => xm (fst p) ht (snd p)) [10; 16; 20])
    [(Sha2, 256); (Sha2, 512); (ShakeP, 256); (ShakeP, 512); (Sha2, 192); (Shake256P, 256); (Shake256P, 192)]).
(** pq_logic/keys/stateful_sig_keys.py 1281-1338 (XMSSMT_ALG_IDS) *)
Definition mt_shapes (h : xhash) (bits : Z) : list xset :=
  map (fun p => xmt h bits (fst p) (snd p)) [(20, 2); (20, 4); (40, 2); (40, 4); (40, 8); (60, 3); (60, 6); (60, 12)].
Definition xmssmt_ids : list (Z * xset) :=
  number (flat_map (fun p => mt_shapes (fst p) (snd p))
    [(Sha2, 256); (Sha2, 512); (ShakeP, 256); (ShakeP, 512); (Sha2, 192); (Shake256P, 256); (Shake256P, 192)]).
(** pq_logic/keys/stateful_sig_keys.py 61-95 (XMSSMT_ALG_DETAILS): the entries for 192-bit hashes and SHAKE256 names
    are missing. *)
Definition in_mt_details (x : xset) : bool :=
  existsb (xset_eqb x) (flat_map (fun p => mt_shapes (fst p) (snd p)) [(Sha2, 256); (Sha2, 512); (ShakeP, 256); (ShakeP, 512)]).
(** The "n" of pq_logic/keys/stateful_sig_keys.py 61-95 (XMSSMT_ALG_DETAILS): 64 for the 512-bit sets, else 32. *)
Definition mt_n (x : xset) : nat := if xs_bits x =? 512 then 64 else 32.

Definition id_lookup (l : list (Z * xset)) (i : Z) : option xset :=
  match find (fun p => fst p =? i) l with Some p => Some (snd p) | None => None end.

(** liboqs: signature, public key and secret key lengths and the number of signatures of a parameter set; the secret
    key object keeps the bytes it was made from, and refuses others with an exception of its own. *)
Record xmss_lib := { xl_sig : xset -> nat; xl_pub : xset -> nat; xl_sec : xset -> nat; xl_total : xset -> Z }.

Record xpub := { xp_set : xset; xp_raw : bytes }.
Record xpriv := { xk_set : xset; xk_raw : bytes; xk_pub : option bytes; xk_used : list bytes }.

(** [int(name.split("_")[-1]) // 8]. *)
Definition out_len (x : xset) : nat := Z.to_nat (xs_bits x / 8).

(** pq_logic/keys/stateful_sig_keys.py 470-477 (XMSSPublicKey.key_size) *)
Definition xmss_key_size (x : xset) : nat := (2 * out_len x + 4)%nat.
(** pq_logic/keys/stateful_sig_keys.py 421-429 (XMSSPublicKey._initialize_key) *)
Definition xmss_public (x : xset) (raw : bytes) : result xpub :=
  let! _ := guard (length raw =? xmss_key_size x)%nat EInvalidKeyData in Ok {| xp_set := x; xp_raw := raw |}.
(** pq_logic/keys/stateful_sig_keys.py 443-449 (XMSSPublicKey.from_public_bytes) *)
Definition xmss_from_public_bytes (raw : bytes) : result xpub :=
  let! x := of_opt (id_lookup xmss_ids (from_be (firstn 4 raw))) EInvalidKeyData in xmss_public x raw.
(** pq_logic/keys/stateful_sig_keys.py 431-436 (XMSSPublicKey.get_leaf_index) *)
Definition xmss_leaf_index (X : xmss_lib) (x : xset) (sig : bytes) : result Z :=
  let! _ := guard (length sig =? xl_sig X x)%nat EValueError in Ok (from_be (firstn 4 sig)).
(** pq_logic/keys/stateful_sig_keys.py 464-467 (XMSSPublicKey.max_sig_size) *)
Definition xmss_max (x : xset) : Z := 2 ^ xs_h x - 1.

(** pq_logic/keys/stateful_sig_keys.py 678-686 (XMSSMTPublicKey._initialize_key) *)
Definition mt_public (X : xmss_lib) (x : xset) (raw : bytes) : result xpub :=
  let! _ := guard (length raw =? xl_pub X x)%nat EInvalidKeyData in Ok {| xp_set := x; xp_raw := raw |}.
(** pq_logic/keys/stateful_sig_keys.py 703-712 (XMSSMTPublicKey.from_public_bytes): both tables are read with [d[k]]. *)
Definition mt_from_public_bytes (X : xmss_lib) (raw : bytes) : result xpub :=
  let! x := of_opt (id_lookup xmssmt_ids (from_be (firstn 4 raw))) EKeyError in
  let! _ := guard (in_mt_details x) EKeyError in
  let! _ := guard (length raw =? mt_n x * 2 + 4)%nat EInvalidKeyData in
  mt_public X x raw.
(** pq_logic/keys/stateful_sig_keys.py 688-700 (XMSSMTPublicKey.get_leaf_index) *)
Definition mt_leaf_index (x : xset) (sig : bytes) : result Z :=
  let! _ := guard (negb (length sig <? 4)%nat) EValueError in Ok (from_be (firstn (ceil8 (xs_h x)) sig)).

(** pq_logic/keys/stateful_sig_keys.py 365-398 (_xmss_liboqs_sk_to_pk); [xs_d] is 0 for XMSS. *)
Definition sk_to_pk (x : xset) (sk : bytes) : result bytes :=
  let oid := slice 0 4 sk in
  let n := out_len x in
  if xs_d x =? 0 then
    let start := (8 + 2 * n)%nat in
    Ok (oid ++ slice start (start + n) sk ++ slice (start + n) (start + 2 * n) sk)
  else
    let! _ := guard (in_mt_details x) EKeyError in
    let off2 := Z.of_nat (ceil8 (xs_h x)) - 4 in
    let root := Z.to_nat (Z.of_nat (8 + 2 * n) + off2) in
    let seed := Z.to_nat (Z.of_nat (8 + 3 * n) + off2) in
    Ok (oid ++ slice root (root + n) sk ++ slice seed (seed + n) sk).

(** pq_logic/keys/stateful_sig_keys.py 542-555 (XMSSPrivateKey._initialize_key) and
    pq_logic/keys/stateful_sig_keys.py 796-809 (XMSSMTPrivateKey._initialize_key), with private key bytes. *)
Definition x_private (X : xmss_lib) (x : xset) (raw : bytes) (pub : option bytes) : result xpriv :=
  let! _ := guard (length raw =? xl_sec X x)%nat EInvalidKeyData in
  Ok {| xk_set := x; xk_raw := raw; xk_pub := pub; xk_used := [] |}.
(** pq_logic/keys/stateful_sig_keys.py 572-592 (XMSSPrivateKey.from_private_bytes) *)
Definition xmss_from_private_bytes (X : xmss_lib) (raw : bytes) : result xpriv :=
  let! x := of_opt (id_lookup xmss_ids (from_be (firstn 4 raw))) EInvalidKeyData in
  let! _ := guard (negb (length raw <? 4 + 3 * out_len x)%nat) EInvalidKeyData in
  let! _ := guard (negb (length raw =? 4 + 3 * out_len x)%nat) ENotImplemented in
  x_private X x raw None.
(** pq_logic/keys/stateful_sig_keys.py 834-837 (XMSSMTPrivateKey.from_private_bytes); the constructor's name check refuses sets
    outside XMSSMT_ALG_DETAILS (XMSSMTPrivateKey._check_name). *)
Definition mt_from_private_bytes (X : xmss_lib) (raw : bytes) : result xpriv :=
  let! x := of_opt (id_lookup xmssmt_ids (from_be (firstn 4 raw))) EKeyError in
  let! _ := guard (in_mt_details x) EValueError in
  x_private X x raw None.
(** pq_logic/keys/stateful_sig_keys.py 521-525 (XMSSPrivateKey.public_key) and
    pq_logic/keys/stateful_sig_keys.py 811-815 (XMSSMTPrivateKey.public_key) *)
Definition x_public_key (X : xmss_lib) (K : xpriv) : result xpub :=
  let! b := match xk_pub K with Some b => Ok b | None => sk_to_pk (xk_set K) (xk_raw K) end in
  if xs_d (xk_set K) =? 0 then xmss_public (xk_set K) b else mt_public X (xk_set K) b.

(** resources/keyutils.py 1238-1258 (_get_index) *)
Definition index_len (x : xset) : nat := if xs_d x =? 0 then 4%nat else ceil8 (xs_h x).
Definition get_index (X : xmss_lib) (x : xset) (last_index : bool) (index : option Z) : result bytes :=
  match index with
  | Some i => if last_index then to_be (index_len x) (xl_total X x - 1) else to_be (index_len x) i
  | None => to_be (index_len x) (xl_total X x)
  end.

(** resources/keyutils.py 1262-1357 (modify_pq_stateful_sig_private_key) for XMSS and XMSS^MT keys. *)
Definition modify_xmss (X : xmss_lib) (K : xpriv) (last_index : bool) (index : option Z) (used_index : bool)
  : result xpriv :=
  let x := xk_set K in
  if used_index then
    let! b := pick_used (xk_used K) index in
    if xs_d x =? 0 then xmss_from_private_bytes X b else mt_from_private_bytes X b
  else
    let! ib := get_index X x last_index index in
    let raw := firstn 4 (xk_raw K) ++ ib ++ skipn (4 + index_len x) (xk_raw K) in
    let! p := x_public_key X K in
    x_private X x raw (Some (xp_raw p)).

(** pq_logic/keys/stateful_sig_keys.py 594-610 (XMSSPrivateKey._change_index) *)
Definition xmss_change_index (X : xmss_lib) (K : xpriv) (i : Z) : result xpriv :=
  let raw := xk_raw K in
  if from_be (slice 4 8 raw) =? i then Ok K
  else let! ib := to_be 4 i in
       let! p := x_public_key X K in
       x_private X (xk_set K) (firstn 4 raw ++ ib ++ skipn 8 raw) (Some (xp_raw p)).
(** pq_logic/keys/stateful_sig_keys.py 874-887 (XMSSMTPrivateKey._change_index) *)
Definition mt_change_index (X : xmss_lib) (K : xpriv) (i : Z) : result xpriv :=
  let raw := xk_raw K in
  let k := ceil8 (xs_h (xk_set K)) in
  let! ib := to_be k i in
  let! p := x_public_key X K in
  x_private X (xk_set K) (firstn 4 raw ++ ib ++ skipn (4 + k) raw) (Some (xp_raw p)).

(** ** Reading and changing the index of a signature *)
Inductive skey := SHss (name : string) (levels : Z) | SXmss (x : xset).

(** resources/keyutils.py 1411-1455 (get_pq_stateful_sig_index_from_sig) *)
Definition index_from_sig (L : hss_lib) (X : xmss_lib) (sig : bytes) (key : skey) (lms_index : bool) : result Z :=
  match key with
  | SHss name levels => if lms_index then hss_leaf_index L sig else compute_hss_signature_index L sig name levels
  | SXmss x => if xs_d x =? 0 then xmss_leaf_index X x sig else mt_leaf_index x sig
  end.

(** Where resources/utils.py 816-908 (manipulate_pq_stateful_signature_bytes) finds the index: start and length. *)
Definition index_place (key : skey) : result (nat * nat * option details) :=
  match key with
  | SXmss x => Ok (0%nat, index_len x, None)
  | SHss name levels =>
      let! d := of_opt (hss_details name) EValueError in
      let! _ := guard (negb (levels <? 1)) EValueError in
      Ok (Z.to_nat (4 + Z.max 0 (levels - 1) * (d_sig_len d + d_pub_len d)), 4%nat, Some d)
  end.

(** resources/utils.py 922-927 (_manipulate_stateful_signature_payload) and resources/utils.py 930-941 (_manipulate_hss_lms_signature) *)
Definition manipulate_payload (key : skey) (payload : bytes) : result bytes :=
  match key with
  | SXmss _ => HdrModel.manipulate_first_byte payload
  | SHss name _ =>
      let! d := of_opt (hss_details name) EValueError in
      let! _ := guard (negb (Z.of_nat (length payload) <? d_ots_len d)) EValueError in
      let! m := HdrModel.manipulate_first_byte (firstn (Z.to_nat (d_ots_len d)) payload) in
      Ok (m ++ skipn (Z.to_nat (d_ots_len d)) payload)
  end.

(** resources/utils.py 816-908 (manipulate_pq_stateful_signature_bytes); [total] is the [max_sig_size] of an XMSS key, see
    resources/utils.py 911-919 (_get_default_lms_max_sig_size). *)
Definition manipulate_stateful (X : xmss_lib) (data : bytes) (key : skey) (manipulate_sig : bool) (index : option Z)
  : result bytes :=
  let! (start, len, d) := index_place key in
  let! _ := guard (negb (length data <? start + len)%nat) EValueError in
  if manipulate_sig then
    let! _ := guard (negb (length data =? start + len)%nat) EValueError in
    let! s := manipulate_payload key (skipn (start + len) data) in
    Ok (firstn (start + len) data ++ s)
  else
    let i := match index with
             | Some i => i
             | None => match key, d with
                       | SXmss x, _ => xl_total X x
                       | SHss _ _, Some d => d_max d
                       | SHss _ _, None => 0
                       end
             end in
    let! _ := guard (negb (i <? 0)) EValueError in
    let! _ := guard (negb (256 ^ Z.of_nat len - 1 <? i)) EValueError in
    Ok (firstn start data ++ le len i ++ skipn (start + len) data).

(** ** Public keys in certificate requests *)
(** resources/ca_ra_utils.py 1405-1409 (is_nist_approved_xmss) and resources/ca_ra_utils.py 1398-1402 (is_nist_approved_xmssmt), on the
    parts of the name. *)
Definition nist_approved (x : xset) : bool :=
  match xs_hash x with Sha2 | Shake256P => true | ShakeP => false end && ((xs_bits x =? 256) || (xs_bits x =? 192)).
Inductive spub := PHss (K : hss_pub) | PXmss (x : xset).
(** resources/ca_ra_utils.py 1412-1465 (_validate_pq_hash_stateful_sig_pub_key); [oid_ok]: the algorithm identifier is that of the
    key. *)
Definition validate_template_key (params_set oid_ok : bool) (K : spub) (allow_diff enforce_lwcmp : bool) : result unit :=
  let! _ := guard (negb params_set) EBadCertTemplate in
  let! _ := guard oid_ok EBadCertTemplate in
  match K with
  | PXmss x => guard (nist_approved x) EBadCertTemplate
  | PHss K => match validate_hss_key K (allow_diff || enforce_lwcmp) with
              | Err EInvalidKeyData => Err EBadCertTemplate
              | r => r end
  end.
