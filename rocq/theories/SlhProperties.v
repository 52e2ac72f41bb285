(** Properties C34-C37 and C53-C55: the SLH-DSA implementation in
    pq_logic/fips/fips205.py.  The hash functions [hs] are arbitrary throughout;
    [raw_ok hs] says that their outputs have the right lengths and [raw_bytes hs]
    that they consist of bytes.  [param_sets] are the twelve sets of Table 2. *)
From Verif Require Import SlhSpec LatFacts SlhDigits SlhChecksum SlhWots SlhTree SlhHt SlhBind SlhWitness SlhTop.
From Coq Require Import Lia.
Local Open Scope Z_scope.

(** ** C34: digits *)
(** Digit [j] consists of the bits [b*j .. b*(j+1)-1] of the string, counted from its start. *)
Theorem C34_digits : forall (s : bytes) (b out : nat), (out * b <= 8 * length s)%nat -> is_bytes s = true ->
  exists v, base_2b s b out = Ok v /\ length v = out /\
    forall j, (j < out)%nat -> nthz j v = (from_be s / 2 ^ (8 * Z.of_nat (length s) - Z.of_nat b * (Z.of_nat j + 1))) mod 2 ^ Z.of_nat b.
Proof.
  intros s b out H Hb. eexists. split; [apply base_2b_ok; assumption|]. split; [rewrite map_length, seq_length; reflexivity|].
  intros j Hj.
  rewrite (nthz_map_seq (fun j => (from_be s / 2 ^ (8 * Z.of_nat (length s) - Z.of_nat b * (Z.of_nat j + 1))) mod 2 ^ Z.of_nat b)) by exact Hj.
  reflexivity.
Qed.
Theorem C34_range : forall (s : bytes) (b out : nat), (out * b <= 8 * length s)%nat ->
  exists v, base_2b s b out = Ok v /\ length v = out /\ Forall (fun x => 0 <= x < 2 ^ Z.of_nat b) v.
Proof. exact base_2b_range. Qed.
Theorem C34_short : forall (s : bytes) (b out : nat), (8 * length s < out * b)%nat -> base_2b s b out = Err EIndexError.
Proof. exact base_2b_short. Qed.
Theorem C34_int_of_bytes : forall (x : Z) (l : nat), to_int (to_byte x l) l = Ok (x mod 256 ^ Z.of_nat l).
Proof. exact to_int_to_byte. Qed.
Theorem C34_bytes_of_int : forall (s : bytes) (x : Z), is_bytes s = true -> to_int s (length s) = Ok x -> to_byte x (length s) = s.
Proof. exact to_byte_to_int. Qed.
Example C34_ex : base_2b [18; 52] 4 4 = Ok [1; 2; 3; 4] /\ base_2b [255; 0; 1] 12 2 = Ok [4080; 1] /\ base_2b [1] 4 3 = Err EIndexError /\
  to_int [1; 2; 3] 3 = Ok 66051 /\ to_byte 66051 3 = [1; 2; 3].
Proof. repeat split; reflexivity. Qed.
Print Assumptions C34_digits.
Print Assumptions C34_range.
Print Assumptions C34_short.
Print Assumptions C34_int_of_bytes.
Print Assumptions C34_bytes_of_int.

(** ** C35: signatures verify *)
Theorem C35_roundtrip : forall hs p, raw_ok hs -> In p param_sets ->
  forall sk_seed sk_prf pk_seed msg ctx rnd,
  length sk_seed = n p -> length sk_prf = n p -> length pk_seed = n p -> (length ctx <= 255)%nat ->
  exists pk sk s, slh_keygen_internal hs p sk_seed sk_prf pk_seed = Ok (pk, sk) /\
    length pk = pk_sz p /\ length sk = sk_sz p /\
    slh_sign hs p msg ctx sk rnd = Ok (Some s) /\ length s = sig_sz p /\ slh_verify hs p msg s ctx pk = Ok true.
Proof. intros hs p H Hp. apply public_roundtrip; [exact H|apply wf_of; exact Hp]. Qed.
(** The sizes of Table 2 of FIPS 205. *)
Theorem C35_sizes : map (fun p => (pk_sz p, sk_sz p, N.of_nat (sig_sz p))) (map (fun f => f SHA2) [p128s; p128f; p192s; p192f; p256s; p256f]) =
  [(32, 64, 7856%N); (32, 64, 17088%N); (48, 96, 16224%N); (48, 96, 35664%N); (64, 128, 29792%N); (64, 128, 49856%N)]%nat.
Proof. vm_compute. reflexivity. Qed.
(** Signing and verification never raise; nothing of the wrong length is accepted. *)
Theorem C35_verify_total : forall hs p, raw_ok hs -> In p param_sets -> forall msg sg ctx pk,
  exists b, slh_verify hs p msg sg ctx pk = Ok b /\
    (b = true -> length sg = sig_sz p /\ length pk = pk_sz p /\ (length ctx <= 255)%nat).
Proof. intros hs p H Hp. apply verify_never_raises; [exact H|apply wf_of; exact Hp]. Qed.
Theorem C35_sign_total : forall hs p, raw_ok hs -> In p param_sets -> forall msg sk ctx rnd,
  exists r, slh_sign hs p msg ctx sk rnd = Ok r.
Proof. intros hs p H Hp. apply sign_never_raises; [exact H|apply wf_of; exact Hp]. Qed.
Theorem C35_long_context : forall hs p (ctx msg sk sg pk : bytes) rnd, (255 < length ctx)%nat ->
  slh_sign hs p msg ctx sk rnd = Ok None /\ slh_verify hs p msg sg ctx pk = Ok false.
Proof. exact long_context. Qed.
(** The layers: the public value recomputed from a signature is the generated one.  [adr l t y kp b c] is the
    address with layer [l], tree [t], type [y] and the three type-specific words; the leftovers [b] and [c]
    (for XMSS also [y] and [kp]) of earlier calls do not matter. *)
Theorem C35_wots : forall hs p, raw_ok hs -> In p param_sets -> forall sk pk l t kp b c msg, 0 <= kp < 2 ^ 32 -> length msg = n p ->
  exists sg pkw A1 A2 A3, wots_sign hs p msg sk pk (adr l t WOTS_HASH kp b c) = Ok (sg, A1) /\
    wots_pk_from_sig hs p sg msg pk (adr l t WOTS_HASH kp b c) = Ok (pkw, A2) /\
    wots_pkgen hs p sk pk (adr l t WOTS_HASH kp b c) = Ok (pkw, A3).
Proof. intros hs p H Hp. apply wots_roundtrip; [exact H|apply wf_of; exact Hp]. Qed.
Theorem C35_xmss : forall hs p, raw_ok hs -> In p param_sets -> forall sk pk l t y kp b c idx msg,
  0 <= idx < 2 ^ Z.of_nat (hp p) -> length msg = n p ->
  exists sg root A1 A2 A3, xmss_sign hs p msg sk idx pk (adr l t y kp b c) = Ok (sg, A1) /\
    xmss_pk_from_sig hs p idx sg msg pk (adr l t y kp b c) = Ok (root, A2) /\
    xmss_node hs p sk 0 (hp p) pk (adr l t y kp b c) = Ok (root, A3).
Proof. intros hs p H Hp. apply xmss_roundtrip; [exact H|apply wf_of; exact Hp]. Qed.
(** The FORS public key is T applied to the roots of the [k] trees as fors_node computes them. *)
Theorem C35_fors : forall hs p, raw_ok hs -> In p param_sets -> forall sk pk t kp b c md,
  0 <= kp < 2 ^ 32 -> length md = Nat.div (k p * a p + 7) 8 ->
  exists sg A1 A2 (root : nat -> bytes), fors_sign hs p md sk pk (adr 0 t FORS_TREE kp b c) = Ok (sg, A1) /\
    fors_pk_from_sig hs p sg md pk (adr 0 t FORS_TREE kp b c) = Ok (h_t hs p pk (adr 0 t FORS_ROOTS kp 0 0) (flat_map root (seq 0 (k p))), A2) /\
    forall i, (i < k p)%nat -> exists A, fors_node hs p sk (Z.of_nat i) (a p) pk (adr 0 t FORS_TREE kp b c) = Ok (root i, A).
Proof.
  intros hs p H Hp sk pk t kp b c md Hk Lm. pose proof (wf_of p Hp) as W.
  destruct (fors_roundtrip hs p H W sk pk t kp b c md Hk Lm) as (sg & A1 & A2 & S & V).
  exists sg, A1, A2, (fun i => fnode hs p sk pk t kp (a p) (Z.of_nat i)). split; [exact S|]. split; [exact V|].
  intros i Hi. apply fors_root_nodes; assumption.
Qed.
Theorem C35_hypertree : forall hs p, raw_ok hs -> In p param_sets -> forall sk_seed sk_prf pk_seed msg T L pk sk,
  0 <= L < 2 ^ Z.of_nat (hp p) -> 0 <= T < 2 ^ Z.of_nat (h p - hp p) -> length msg = n p -> length pk_seed = n p ->
  slh_keygen_internal hs p sk_seed sk_prf pk_seed = Ok (pk, sk) ->
  exists sg, ht_sign hs p msg sk_seed pk_seed T L = Ok sg /\ ht_verify hs p msg sg pk_seed T L (skipn (n p) pk) = Ok true.
Proof.
  intros hs p H Hp sk_seed sk_prf pk_seed msg T L pk sk HL HT Lm Lp K. pose proof (wf_of p Hp) as W.
  rewrite (keygen_ok hs p W) in K. assert (E : pk = pk_seed ++ top_root hs p sk_seed pk_seed) by congruence.
  rewrite E, skipn_app_exact by exact Lp. apply ht_roundtrip; assumption.
Qed.
Example C35_hypotheses_ex : raw_ok toy /\ raw_ok mixed /\ In (p128f SHAKE) param_sets /\ length param_sets = 12%nat.
Proof. split; [exact toy_ok|]. split; [exact mixed_ok|]. split; [|reflexivity]. do 7 right. left. reflexivity. Qed.
(** A complete run with a small parameter set and a mixing hash: the signature verifies, and changing one
    byte of the message, of the context or of the signature makes it fail. *)
Definition flip (i : nat) (s : bytes) : bytes := firstn i s ++ match skipn i s with [] => [] | x :: r => Z.lxor x 1 :: r end.
Example C35_run_ex :
  match slh_keygen_internal mixed tiny [1; 2] [3; 4] [5; 6] with
  | Ok (pk, sk) =>
      match slh_sign mixed tiny [7; 8; 9] [10] sk None with
      | Ok (Some s) =>
          length s = sig_sz tiny /\ slh_verify mixed tiny [7; 8; 9] s [10] pk = Ok true /\
          slh_verify mixed tiny [7; 1; 9] s [10] pk = Ok false /\ slh_verify mixed tiny [7; 8; 9] s [11] pk = Ok false /\
          slh_verify mixed tiny [7; 8; 9] (flip 5 s) [10] pk = Ok false /\ slh_verify mixed tiny [7; 8; 9] (flip 40 s) [10] pk = Ok false /\
          slh_verify mixed tiny [7; 8; 9] (s ++ [0]) [10] pk = Ok false
      | _ => False
      end
  | _ => False
  end.
Proof. vm_compute. repeat split. Qed.
Print Assumptions C35_roundtrip.
Print Assumptions C35_sizes.
Print Assumptions C35_verify_total.
Print Assumptions C35_sign_total.
Print Assumptions C35_long_context.
Print Assumptions C35_wots.
Print Assumptions C35_xmss.
Print Assumptions C35_fors.
Print Assumptions C35_hypertree.

(** ** C36: pre-hash signatures *)
(** The claim is false of the code: there are hash functions, a key and an algorithm for which the
    pre-hash verification rejects what the pre-hash signing returned, even when each side is given
    the spelling of the name that it accepts. *)
Theorem C36_refuted : exists hs p sk_seed sk_prf pk_seed x, raw_ok hs /\ In p param_sets /\
  length sk_seed = n p /\ length sk_prf = n p /\ length pk_seed = n p /\
  forall msg rnd, exists pk sk s,
    slh_keygen_internal hs p sk_seed sk_prf pk_seed = Ok (pk, sk) /\
    hash_slh_sign hs p msg [] (Lower x) sk rnd = Ok (Some s) /\
    hash_slh_verify hs p pk msg s [] (Upper x) = Ok false.
Proof.
  exists toy, (p128f SHAKE), (repeat 0 16), (repeat 1 16), (repeat 2 16), Shake256.
  split; [exact toy_ok|]. split; [do 7 right; left; reflexivity|]. split; [reflexivity|]. split; [reflexivity|]. split; [reflexivity|].
  exact prehash_rejected.
Qed.
(** No name is accepted by both sides: whatever hash_slh_sign signs, verification under the same name raises. *)
Theorem C36_names_refuted : forall hs p msg ctx ph sk rnd s pk sg, hash_slh_sign hs p msg ctx ph sk rnd = Ok (Some s) ->
  hash_slh_verify hs p pk msg sg ctx ph = Err EValueError.
Proof. exact no_common_name. Qed.
Example C36_names_ex : exists s, hash_slh_sign toy (p128f SHAKE) [1] [] (Lower Sha256) [] None = Ok (Some s).
Proof.
  unfold hash_slh_sign. cbn [length Nat.ltb Nat.leb].
  destruct (sign_total toy (p128f SHAKE) toy_ok p_wf [] (pre_msg toy [] Sha256 [1]) None) as (s & E & _). rewrite E. exists s. reflexivity.
Qed.
Print Assumptions C36_refuted.
Print Assumptions C36_names_refuted.

(** ** C37: addresses *)
(** [field_written i j x A B]: [B] is [A] except that bytes [i..j-1] now hold [x]. *)
Theorem C37_set_layer : forall x A, length A = 32%nat -> 0 <= x < 2 ^ 32 -> field_written 0 4 x A (set_layer_address x A).
Proof. intros x A L H. apply (set_slice_field 0 4); [lia|exact L|lia|exact H]. Qed.
Theorem C37_set_tree : forall x A, length A = 32%nat -> 0 <= x < 2 ^ 96 -> field_written 4 16 x A (set_tree_address x A).
Proof. intros x A L H. apply (set_slice_field 4 16); [lia|exact L|lia|exact H]. Qed.
Theorem C37_set_key_pair : forall x A, length A = 32%nat -> 0 <= x < 2 ^ 32 -> field_written 20 24 x A (set_key_pair_address x A).
Proof. intros x A L H. apply (set_slice_field 20 24); [lia|exact L|lia|exact H]. Qed.
Theorem C37_set_height : forall x A, length A = 32%nat -> 0 <= x < 2 ^ 32 ->
  field_written 24 28 x A (set_tree_height x A) /\ set_chain_address x A = set_tree_height x A.
Proof. intros x A L H. split; [apply (set_slice_field 24 28); [lia|exact L|lia|exact H]|reflexivity]. Qed.
Theorem C37_set_index : forall x A, length A = 32%nat -> 0 <= x < 2 ^ 32 ->
  field_written 28 32 x A (set_tree_index x A) /\ set_hash_address x A = set_tree_index x A.
Proof. intros x A L H. split; [apply (set_slice_field 28 32); [lia|exact L|lia|exact H]|reflexivity]. Qed.
Theorem C37_get : forall x A, length A = 32%nat -> 0 <= x < 2 ^ 32 ->
  get_key_pair_address (set_key_pair_address x A) = x /\ get_tree_index (set_tree_index x A) = x.
Proof.
  intros x A L H. split.
  - apply (set_slice_field 20 24 x A); [lia|exact L|lia|exact H].
  - apply (set_slice_field 28 32 x A); [lia|exact L|lia|exact H].
Qed.
Theorem C37_set_type : forall t A, length A = 32%nat -> 0 <= t < 2 ^ 32 ->
  length (set_type_and_clear t A) = 32%nat /\ from_be (slice 16 20 (set_type_and_clear t A)) = t /\
  (forall q, (q < 16)%nat -> nth q (set_type_and_clear t A) 0 = nth q A 0) /\
  (forall q, (20 <= q < 32)%nat -> nth q (set_type_and_clear t A) 0 = 0).
Proof. exact set_type_bytes. Qed.
(** The compressed form determines the address when layer and type are below 256 and the tree below 2^64. *)
Theorem C37_compressed : forall A B, small_address A -> small_address B -> adrsc A = adrsc B -> A = B.
Proof. exact adrsc_small. Qed.
Theorem C37_fields : forall l t y kp b c l' t' y' kp' b' c',
  0 <= l < 2 ^ 8 -> 0 <= l' < 2 ^ 8 -> 0 <= t < 2 ^ 64 -> 0 <= t' < 2 ^ 64 -> 0 <= y < 2 ^ 8 -> 0 <= y' < 2 ^ 8 ->
  0 <= kp < 2 ^ 32 -> 0 <= kp' < 2 ^ 32 -> 0 <= b < 2 ^ 32 -> 0 <= b' < 2 ^ 32 -> 0 <= c < 2 ^ 32 -> 0 <= c' < 2 ^ 32 ->
  adrsc (adr l t y kp b c) = adrsc (adr l' t' y' kp' b' c') -> l = l' /\ t = t' /\ y = y' /\ kp = kp' /\ b = b' /\ c = c'.
Proof. intros. eapply adrsc_inj; eassumption. Qed.
Example C37_ex : let A := set_tree_index 7 (set_key_pair_address 3 (set_type_and_clear 5 (set_tree_address 9 (set_layer_address 2 new_adrs)))) in
  small_address A /\ adrsc A = [2; 0; 0; 0; 0; 0; 0; 0; 9; 5; 0; 0; 0; 3; 0; 0; 0; 0; 0; 0; 0; 7] /\ A = adr 2 9 5 3 0 7.
Proof. repeat split; reflexivity. Qed.
Print Assumptions C37_set_layer.
Print Assumptions C37_set_tree.
Print Assumptions C37_set_key_pair.
Print Assumptions C37_set_height.
Print Assumptions C37_set_index.
Print Assumptions C37_get.
Print Assumptions C37_set_type.
Print Assumptions C37_compressed.
Print Assumptions C37_fields.

(** ** C53: the checksum makes digit vectors incomparable *)
Theorem C53_incomparable : forall p, In p param_sets -> forall m1 m2 v1 v2,
  length m1 = n p -> length m2 = n p -> is_bytes m1 = true -> is_bytes m2 = true -> m1 <> m2 ->
  wots_digits p m1 = Ok v1 -> wots_digits p m2 = Ok v2 ->
  exists i, (i < len p)%nat /\ nthz i v1 < nthz i v2.
Proof.
  intros p Hp. destruct (wf_facts p (wf_of p Hp)) as (L & D & _). apply wots_incomparable; [lia|exact D].
Qed.
Theorem C53_defined : forall p, In p param_sets -> forall m, length m = n p ->
  exists v, wots_digits p m = Ok v /\ length v = len p /\ Forall (fun x => 0 <= x < w p) v.
Proof. intros p Hp m L. exists (dig p m). apply dig_ok; [apply wf_of; exact Hp|exact L]. Qed.
Example C53_ex : wots_digits (p128s SHA2) (repeat 0 16) = Ok (repeat 0 32 ++ [1; 14; 0]) /\
  wots_digits (p128s SHA2) (repeat 0 15 ++ [1]) = Ok (repeat 0 31 ++ [1; 1; 13; 15]).
Proof. split; vm_compute; reflexivity. Qed.
Print Assumptions C53_incomparable.
Print Assumptions C53_defined.

(** ** C54: what an accepted signature consists of *)
(** SlhBind.v: [verify_q] lists the hash evaluations of the verification, [second_preimage V] says that one of them
    hits, with a different input, the value the key owner computes at that address, and [chain_inversion] that
    the signature contains a chain value that comes before the one the key owner reveals. *)
Theorem C54_accepted : forall hs p, raw_ok hs -> raw_bytes hs -> In p param_sets ->
  forall sk_seed sk_prf pk_seed pk sk msg sg,
  length sk_seed = n p -> length sk_prf = n p -> length pk_seed = n p ->
  slh_keygen_internal hs p sk_seed sk_prf pk_seed = Ok (pk, sk) ->
  slh_verify_internal hs p msg sg pk = Ok true ->
  (let R := firstn (n p) sg in
   exists t l v, md_of hs p R pk_seed (skipn (n p) pk) msg = (v, t, l) /\
   sg = R ++ fors_sigS hs p sk_seed pk_seed t l v ++ ht_sigS hs p sk_seed pk_seed (fors_pkS hs p sk_seed pk_seed t l) t l) \/
  second_preimage hs p pk_seed sk_seed (verify_q hs p pk_seed (skipn (n p) pk) msg sg) \/
  (exists t l v, md_of hs p (firstn (n p) sg) pk_seed (skipn (n p) pk) msg = (v, t, l) /\
   chain_inversion hs p pk_seed sk_seed (t * 2 ^ Z.of_nat (hp p) + l) (sig_ht p sg)).
Proof. intros hs p H1 H2 Hp sk_seed sk_prf pk_seed pk sk msg sg. exact (accepted_is_honest hs p sk_seed sk_prf pk_seed pk sk msg sg H1 H2 (wf_of p Hp)). Qed.
(** The first case is what signing returns. *)
Theorem C54_signed : forall hs p, raw_ok hs -> In p param_sets -> forall sk_seed sk_prf pk_seed pk sk msg rnd s,
  length sk_seed = n p -> length sk_prf = n p -> length pk_seed = n p ->
  slh_keygen_internal hs p sk_seed sk_prf pk_seed = Ok (pk, sk) ->
  slh_sign_internal hs p msg sk rnd = Ok s ->
  exists t l v, md_of hs p (firstn (n p) s) pk_seed (skipn (n p) pk) msg = (v, t, l) /\
   s = firstn (n p) s ++ fors_sigS hs p sk_seed pk_seed t l v ++ ht_sigS hs p sk_seed pk_seed (fors_pkS hs p sk_seed pk_seed t l) t l.
Proof. intros hs p H Hp. apply signed_shape; [exact H|apply wf_of; exact Hp]. Qed.
Example C54_ex : raw_ok mixed /\ raw_bytes mixed /\ exists pk sk s,
  slh_keygen_internal mixed (p256f SHA2) (repeat 1 32) (repeat 2 32) (repeat 3 32) = Ok (pk, sk) /\
  slh_verify_internal mixed (p256f SHA2) [1; 2; 3] s pk = Ok true.
Proof.
  split; [exact mixed_ok|]. split; [exact mixed_bytes|].
  assert (W : wfb (p256f SHA2) = true) by (apply wf_of; do 5 right; left; reflexivity).
  destruct (sign_total mixed (p256f SHA2) mixed_ok W [1; 2; 3] (snd (match slh_keygen_internal mixed (p256f SHA2) (repeat 1 32) (repeat 2 32) (repeat 3 32) with Ok x => x | Err _ => ([], []) end)) None) as (s & S & _).
  eexists _, _, s. split; [apply keygen_ok; exact W|].
  rewrite (keygen_ok mixed _ W) in S. cbn [snd] in S.
  exact (sign_verify mixed (p256f SHA2) mixed_ok W (repeat 1 32) (repeat 2 32) (repeat 3 32) _ _ _ None s eq_refl eq_refl eq_refl (keygen_ok mixed _ W _ _ _) S).
Qed.
Print Assumptions C54_accepted.
Print Assumptions C54_signed.

(** ** C55: domain separation of the signed strings *)
Theorem C55_pure : forall c1 c2 m1 m2, (length c1 <= 255)%nat -> (length c2 <= 255)%nat ->
  pure_msg c1 m1 = pure_msg c2 m2 -> c1 = c2 /\ m1 = m2.
Proof. exact pure_msg_inj. Qed.
Theorem C55_prehash : forall hs c1 c2 x1 x2 m1 m2, (length c1 <= 255)%nat -> (length c2 <= 255)%nat ->
  pre_msg hs c1 x1 m1 = pre_msg hs c2 x2 m2 -> c1 = c2 /\ x1 = x2 /\ snd (ph_digest hs x1 m1) = snd (ph_digest hs x2 m2).
Proof. exact pre_msg_inj. Qed.
Theorem C55_modes : forall hs c1 c2 m1 x m2, pure_msg c1 m1 <> pre_msg hs c2 x m2.
Proof. exact pure_pre_disjoint. Qed.
Example C55_ex : pure_msg [1] [2] = [0; 1; 1; 2] /\ pure_msg [] [1; 2] = [0; 0; 1; 2] /\ firstn 6 (pre_msg mixed [7] Sha512 [1]) = [1; 1; 7; 6; 9; 96].
Proof. repeat split; vm_compute; reflexivity. Qed.
Print Assumptions C55_pure.
Print Assumptions C55_prehash.
Print Assumptions C55_modes.
