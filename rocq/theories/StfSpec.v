(** Vocabulary of the statements about stateful hash-based signatures: the parameter names and codes of RFC 8554,
    SP 800-208 and the IANA registry, the encodings of LMS and HSS signatures, and counting in mixed positions. *)
From Coq Require Import String Ascii.
From Verif Require Import Prelude StfModel.
Open Scope Z_scope.
Local Notation length := List.length.

(** ** Parameter sets *)
(** An LMS tree with its one-time signatures: hash function, output bytes, Winternitz width, height. *)
Record lset := { ls_shake : bool; ls_n : Z; ls_w : Z; ls_h : Z }.
Definition valid_set (s : lset) : Prop :=
  In (ls_n s) [24; 32] /\ In (ls_w s) [1; 2; 4; 8] /\ In (ls_h s) [5; 10; 15; 20; 25].

Definition digit (z : Z) : ascii := ascii_of_nat (48 + Z.to_nat z).
(** Numbers below 100 in decimal. *)
Definition dec (z : Z) : string :=
  if z <? 10 then String (digit z) "" else String (digit (z / 10)) (String (digit (z mod 10)) "").
Definition fam_name (shake : bool) : string := if shake then "shake" else "sha256".
Definition lms_name (s : lset) : string :=
  "lms_" ++ fam_name (ls_shake s) ++ "_m" ++ dec (ls_n s) ++ "_h" ++ dec (ls_h s).
Definition ots_name (s : lset) : string :=
  "lmots_" ++ fam_name (ls_shake s) ++ "_n" ++ dec (ls_n s) ++ "_w" ++ dec (ls_w s).
Definition set_name (s : lset) : string := "hss_" ++ lms_name s ++ "_" ++ ots_name s.

(** The IANA registry: LMS types 5 to 24, LM-OTS types 1 to 16. *)
Definition lms_code (s : lset) : Z :=
  (if ls_shake s then 10 else 0) + (if ls_n s =? 32 then 5 else 10) + (ls_h s / 5 - 1).
Definition ots_code (s : lset) : Z :=
  (if ls_shake s then 8 else 0) + (if ls_n s =? 32 then 1 else 5) + Z.log2 (ls_w s).

(** RFC 8554 appendix B: the number of Winternitz chains. *)
Definition cdiv (a b : Z) : Z := (a + b - 1) / b.
Definition chain_count (s : lset) : Z :=
  let u := cdiv (8 * ls_n s) (ls_w s) in
  u + cdiv (Z.log2 ((2 ^ ls_w s - 1) * u) + 1) (ls_w s).

(** A level of a hierarchy, as the pair of parameter names, in any case. *)
Definition names_level (s : lset) (p : string * string) : Prop :=
  CompLoadModel.lower (fst p) = lms_name s /\ CompLoadModel.lower (snd p) = ots_name s.

(** ** Encodings (RFC 8554 sections 4.5, 5.3, 5.4, 6.1, 6.2) *)
Record lms_sig := { s_set : lset; s_q : Z; s_ots : bytes; s_path : bytes }.
Record lms_pub := { p_set : lset; p_id : bytes; p_root : bytes }.
Definition nlen (z : Z) : nat := Z.to_nat z.
Definition wf_sig (s : lms_sig) : Prop :=
  valid_set (s_set s) /\ 0 <= s_q s < 2 ^ 32 /\
  length (s_ots s) = nlen (ls_n (s_set s) * (chain_count (s_set s) + 1)) /\
  length (s_path s) = nlen (ls_h (s_set s) * ls_n (s_set s)).
Definition wf_pub (p : lms_pub) : Prop :=
  valid_set (p_set p) /\ length (p_id p) = 16%nat /\ length (p_root p) = nlen (ls_n (p_set p)).
Definition sig_wire (s : lms_sig) : bytes :=
  be 4 (s_q s) ++ (be 4 (ots_code (s_set s)) ++ s_ots s) ++ be 4 (lms_code (s_set s)) ++ s_path s.
Definition pub_wire (p : lms_pub) : bytes :=
  be 4 (lms_code (p_set p)) ++ be 4 (ots_code (p_set p)) ++ p_id p ++ p_root p.

(** An HSS signature: the signed public keys of the lower trees, and the signature of the message. *)
Record hss_sig := { h_ups : list (lms_sig * lms_pub); h_last : lms_sig }.
Definition wf_hss (g : hss_sig) : Prop :=
  (length (h_ups g) <= 7)%nat /\ Forall (fun p => wf_sig (fst p) /\ wf_pub (snd p)) (h_ups g) /\ wf_sig (h_last g).
Definition hss_wire (g : hss_sig) : bytes :=
  be 4 (Z.of_nat (length (h_ups g))) ++
  concat (map (fun p => sig_wire (fst p) ++ pub_wire (snd p)) (h_ups g)) ++ sig_wire (h_last g).
Definition levels_of (g : hss_sig) : Z := Z.of_nat (length (h_ups g)) + 1.
(** The leaf numbers, from the root tree down. *)
Definition leaves (g : hss_sig) : list Z := map (fun p => s_q (fst p)) (h_ups g) ++ [s_q (h_last g)].
(** All trees have the parameters [s]. *)
Definition uniform (s : lset) (g : hss_sig) : Prop :=
  Forall (fun p => s_set (fst p) = s /\ p_set (snd p) = s) (h_ups g) /\ s_set (h_last g) = s.

(** The signature parser of the library reads this encoding. *)
Definition reads_signatures (L : hss_lib) : Prop :=
  forall g, wf_hss g -> hl_sig L (hss_wire g) = Some (levels_of g, map (fun p => s_q (fst p)) (h_ups g), s_q (h_last g)).

(** The HSS public key encoding. *)
Definition hss_pub_wire (levels : Z) (p : lms_pub) : bytes := be 4 levels ++ pub_wire p.
Definition reads_public_keys (L : hss_lib) : Prop :=
  forall levels p, 1 <= levels <= 8 -> wf_pub p ->
  hl_pub L (hss_pub_wire levels p) = Some (levels, be 4 (lms_code (p_set p)), be 4 (ots_code (p_set p))).

(** ** Counting *)
(** The number with digits [qs], most significant first, in base [r]. *)
Fixpoint radix (r : Z) (qs : list Z) : Z :=
  match qs with [] => 0 | q :: t => q * r ^ Z.of_nat (length t) + radix r t end.
(** The leaf numbers of the next signature: the lowest tree moves on; an exhausted tree starts again below the next
    leaf of the tree above. *)
Fixpoint advance (r : Z) (qs : list Z) : option (list Z) :=
  match qs with
  | [] => None
  | q :: t => match advance r t with
              | Some t' => Some (q :: t')
              | None => if q + 1 <? r then Some (q + 1 :: map (fun _ => 0) t) else None
              end
  end.

(** ** Changes to byte strings *)
(** [a] and [b] have the same length and the same bytes outside [i, j). *)
Definition same_outside (i j : nat) (a b : bytes) : Prop :=
  length a = length b /\ forall k, (k < i \/ j <= k)%nat -> nth_error a k = nth_error b k.
(** [a] and [b] differ exactly in byte [i]. *)
Definition differ_only_at (i : nat) (a b : bytes) : Prop :=
  length a = length b /\ (i < length a)%nat /\ (forall k, nth_error a k = nth_error b k <-> k <> i).
(** The [k]-byte number whose big-endian bytes are the little-endian bytes of [x]. *)
Definition swapped (k : nat) (x : Z) : Z := from_be (le k x).

(** ** XMSS *)
Definition xmss_set (x : xset) : Prop :=
  xs_d x = 0 /\ In (xs_h x) [10; 16; 20] /\
  In (xs_hash x, xs_bits x) [(Sha2, 192); (Sha2, 256); (Sha2, 512); (ShakeP, 256); (ShakeP, 512); (Shake256P, 192); (Shake256P, 256)].
Definition mt_set (x : xset) : Prop :=
  In (xs_h x, xs_d x) [(20, 2); (20, 4); (40, 2); (40, 4); (40, 8); (60, 3); (60, 6); (60, 12)] /\
  In (xs_hash x, xs_bits x) [(Sha2, 192); (Sha2, 256); (Sha2, 512); (ShakeP, 256); (ShakeP, 512); (Shake256P, 192); (Shake256P, 256)].
(** The sets of XMSS^MT for which the module has a table entry. *)
Definition mt_known (x : xset) : Prop := mt_set x /\ (xs_bits x = 256 \/ xs_bits x = 512) /\ xs_hash x <> Shake256P.
(** The secret key of liboqs: identifier, index, two secret seeds, two public values, and the traversal state. *)
Definition xmss_secret (x : xset) (oid idx sk_seed sk_prf v1 v2 rest : bytes) : bytes :=
  oid ++ idx ++ sk_seed ++ sk_prf ++ v1 ++ v2 ++ rest.
(** Bytes of the signature index: 4 in XMSS, a height rounded up to bytes in XMSS^MT. *)
Definition x_index_bytes (x : xset) : nat := if xs_d x =? 0 then 4%nat else Z.to_nat ((xs_h x + 7) / 8).

(** ** Changed HSS signatures *)
(** The signature [g] with another leaf number in the lowest tree. *)
Definition with_leaf (q : Z) (g : hss_sig) : hss_sig :=
  {| h_ups := h_ups g; h_last := {| s_set := s_set (h_last g); s_q := q; s_ots := s_ots (h_last g); s_path := s_path (h_last g) |} |}.
(** The bytes of [g] with another type code in front of the one-time signature of the message. *)
Definition wire_with_type (t : Z) (g : hss_sig) : bytes :=
  be 4 (Z.of_nat (length (h_ups g))) ++
  concat (map (fun p => sig_wire (fst p) ++ pub_wire (snd p)) (h_ups g)) ++
  be 4 (s_q (h_last g)) ++ (be 4 t ++ s_ots (h_last g)) ++ be 4 (lms_code (s_set (h_last g))) ++ s_path (h_last g).

(** ** HSS private keys *)
Definition tree_of (s : lset) (t : tree) : Prop :=
  t_lms t = be 4 (lms_code s) /\ t_lmots t = be 4 (ots_code s) /\ 0 <= t_q t <= 2 ^ ls_h s /\ length (t_rest t) = 48%nat.
(** The trees have the parameters [ss], from the root down. *)
Definition wf_state (ss : list lset) (st : Z * list tree) : Prop :=
  fst st = Z.of_nat (length (snd st)) /\ (1 <= length (snd st) <= 8)%nat /\ Forall valid_set ss /\ Forall2 tree_of ss (snd st).
Definition capacity (ss : list lset) : Z := fold_right (fun s t => 2 ^ ls_h s * t) 1 ss.
(** Serialized private keys are read back, and the library counts signatures as RFC 8554 does. *)
Definition keeps_keys (L : hss_lib) : Prop :=
  (forall ss st, wf_state ss st -> hl_prv L (hl_ser L st) = Some st) /\
  (forall ss st, wf_state ss st -> hl_max L st = capacity ss) /\
  (forall s t, valid_set s -> tree_of s t -> hl_tree_max L t = 2 ^ ls_h s).
(** The trees of [st] with leaf [q] next in the root tree, or in every tree its own [qs]. *)
Definition root_at (q : Z) (l : list tree) : list tree := match l with [] => [] | t :: r => set_q q t :: r end.
Definition all_spent (ss : list lset) (l : list tree) : list tree := map (fun p => set_q (2 ^ ls_h (fst p)) (snd p)) (combine ss l).

(** ** Position of a signature among all signatures of the key *)
(** Tree sizes and leaf numbers, from the root tree down. *)
Definition tree_leaves (g : hss_sig) : list (Z * Z) :=
  map (fun p => (2 ^ ls_h (s_set (fst p)), s_q (fst p))) (h_ups g) ++ [(2 ^ ls_h (s_set (h_last g)), s_q (h_last g))].
(** How many signatures come before the one with these leaves: every leaf of a tree carries a whole tree below it. *)
Fixpoint position (l : list (Z * Z)) : Z :=
  match l with
  | [] => 0
  | (_, q) :: t => q * fold_right (fun p a => fst p * a) 1 t + position t
  end.
Definition root_set (g : hss_sig) : lset := match h_ups g with [] => s_set (h_last g) | p :: _ => s_set (fst p) end.
Definition leaves_fit (g : hss_sig) : Prop := Forall (fun p => 0 <= snd p < fst p) (tree_leaves g).

(** The registered numbers of XMSS and XMSS^MT (RFC 8391 section 8, SP 800-208 section 5): seven hash functions, with
    three heights or eight shapes each. *)
Definition hash_rank (x : xset) : Z :=
  match xs_hash x with
  | Sha2 => if xs_bits x =? 256 then 0 else if xs_bits x =? 512 then 1 else 4
  | ShakeP => if xs_bits x =? 256 then 2 else 3
  | Shake256P => if xs_bits x =? 256 then 5 else 6
  end.
Definition xmss_number (x : xset) : Z := 3 * hash_rank x + (if xs_h x =? 10 then 1 else if xs_h x =? 16 then 2 else 3).
Definition mt_number (x : xset) : Z :=
  8 * hash_rank x +
  (if xs_h x =? 20 then xs_d x / 2 else if xs_h x =? 40 then 3 + Z.log2 (xs_d x) - 1 else 6 + Z.log2 (xs_d x / 3)).
