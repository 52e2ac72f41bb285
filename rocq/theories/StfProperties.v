(** C42, C78, C79, C80: stateful hash-based signatures. *)
From Coq Require Import String Ascii Arith.
From Verif Require Import Prelude PreludeFacts StfModel StfSpec StfProofs StfHss StfMore StfRef StfKeys.
Open Scope Z_scope.
Local Notation length := List.length.

(** Sample parameter sets and signatures. *)
Definition s5 : lset := {| ls_shake := false; ls_n := 32; ls_w := 8; ls_h := 5 |}.
Definition s10 : lset := {| ls_shake := false; ls_n := 32; ls_w := 8; ls_h := 10 |}.
Definition s20 : lset := {| ls_shake := true; ls_n := 24; ls_w := 4; ls_h := 20 |}.
Lemma s5_ok : valid_set s5. Proof. unfold valid_set; simpl; auto 10. Qed.
Lemma s10_ok : valid_set s10. Proof. unfold valid_set; simpl; auto 10. Qed.
Lemma s20_ok : valid_set s20. Proof. unfold valid_set; simpl; auto 10. Qed.
Definition sample_sig (s : lset) (q : Z) : lms_sig :=
  {| s_set := s; s_q := q; s_ots := repeat 7 (nlen (ls_n s * (chain_count s + 1))); s_path := repeat 9 (nlen (ls_h s * ls_n s)) |}.
Definition sample_pub (s : lset) : lms_pub := {| p_set := s; p_id := repeat 1 16; p_root := repeat 2 (nlen (ls_n s)) |}.
Lemma sample_sig_wf : forall s q, valid_set s -> 0 <= q < 2 ^ 32 -> wf_sig (sample_sig s q).
Proof. intros s q V H. split; [exact V|]. split; [exact H|]. split; apply repeat_length. Qed.
Lemma sample_pub_wf : forall s, valid_set s -> wf_pub (sample_pub s).
Proof. intros s V. split; [exact V|]. split; apply repeat_length. Qed.
(** Two levels with parameters [s] and [t], at leaf [a] of the root tree and leaf [b] of the lower tree. *)
Definition two_levels (s t : lset) (a b : Z) : hss_sig := {| h_ups := [(sample_sig s a, sample_pub t)]; h_last := sample_sig t b |}.
Lemma two_levels_wf : forall s t a b, valid_set s -> valid_set t -> 0 <= a < 2 ^ 32 -> 0 <= b < 2 ^ 32 -> wf_hss (two_levels s t a b).
Proof.
  intros. split; [simpl; lia|]. split; [constructor; [|constructor]; split; [apply sample_sig_wf | apply sample_pub_wf]; assumption|].
  apply sample_sig_wf; assumption.
Qed.
Lemma two_levels_uniform : forall s a b, uniform s (two_levels s s a b).
Proof. intros. split; [constructor; [split; reflexivity | constructor] | reflexivity]. Qed.

(** ** C42 *)
(** Without the flag, a list of levels is accepted exactly when it has one to eight levels, each naming an LMS and an
    LM-OTS parameter set of the same hash and output size, all levels with one hash, one output size and one
    Winternitz parameter; heights may differ. *)
Theorem C42_levels : forall levels, validate_hss_key_levels levels false = Ok tt <->
  (1 <= length levels <= 8)%nat /\
  exists shake n w, Forall (fun p => exists h, valid_set {| ls_shake := shake; ls_n := n; ls_w := w; ls_h := h |} /\
     names_level {| ls_shake := shake; ls_n := n; ls_w := w; ls_h := h |} p) levels.
Proof. exact levels_exact. Qed.
Print Assumptions C42_levels.
Example C42_levels_ex :
  validate_hss_key_levels [("LMS_SHA256_M32_H20", "LMOTS_SHA256_N32_W4"); ("lms_sha256_m32_h5", "lmots_sha256_n32_w4")]%string false = Ok tt /\
  validate_hss_key_levels [("lms_sha256_m32_h20", "lmots_sha256_n32_w4"); ("lms_sha256_m32_h5", "lmots_sha256_n32_w8")]%string false = Err EInvalidKeyData /\
  validate_hss_key_levels [] false = Err EInvalidKeyData.
Proof. vm_compute. auto. Qed.

(** A public key created under a name, in upper or lower case, is the key read from the bytes, if that has this name. *)
Theorem C42_public_any_case : forall L name raw s K, valid_set s -> CompLoadModel.lower name = set_name s ->
  (hss_public L name raw = Ok K <-> hss_from_public_bytes L raw = Ok K /\ hp_name K = set_name s).
Proof. exact public_any_case. Qed.
Print Assumptions C42_public_any_case.
Example C42_public_any_case_ex :
  CompLoadModel.lower "HSS_LMS_SHA256_M32_H5_LMOTS_SHA256_N32_W8" = set_name s5 /\ CompLoadModel.lower (set_name s5) = set_name s5.
Proof. split; reflexivity. Qed.

(** With the flag, only the levels by themselves are checked. *)
Theorem C42_levels_flag : forall levels, validate_hss_key_levels levels true = Ok tt <->
  (1 <= length levels <= 8)%nat /\ Forall (fun p => exists s, valid_set s /\ names_level s p) levels.
Proof. exact levels_lw. Qed.
Print Assumptions C42_levels_flag.

(** Every refusal is InvalidKeyData. *)
Theorem C42_levels_error : forall levels flag e, validate_hss_key_levels levels flag = Err e -> e = EInvalidKeyData.
Proof. exact levels_error. Qed.
Print Assumptions C42_levels_error.

(** The flag is documented as adding the uniformity rules; it removes them. *)
Theorem C42_enforce_lw_refuted : ~ (forall levels, validate_hss_key_levels levels true = Ok tt -> validate_hss_key_levels levels false = Ok tt).
Proof.
  intros H. specialize (H [("lms_sha256_m32_h5", "lmots_sha256_n32_w4"); ("lms_shake_m24_h5", "lmots_shake_n24_w8")]%string).
  assert (E : validate_hss_key_levels [("lms_sha256_m32_h5", "lmots_sha256_n32_w4"); ("lms_shake_m24_h5", "lmots_shake_n24_w8")]%string true = Ok tt)
    by (vm_compute; reflexivity).
  specialize (H E). vm_compute in H. discriminate.
Qed.
Print Assumptions C42_enforce_lw_refuted.

(** Public keys: accepted exactly when the library reads them, both type codes are those of one parameter set, and the
    length is that of the set; the name is the one of the set. *)
Theorem C42_public_key : forall L raw K, hss_from_public_bytes L raw = Ok K <->
  exists s lv, valid_set s /\ hl_pub L raw = Some (lv, be 4 (lms_code s), be 4 (ots_code s)) /\
    Z.of_nat (length raw) = 28 + ls_n s /\
    K = {| hp_name := set_name s; hp_raw := raw; hp_levels := lv; hp_lms := be 4 (lms_code s); hp_lmots := be 4 (ots_code s) |}.
Proof. exact public_key_exact. Qed.
Print Assumptions C42_public_key.

(** Every well-formed public key is loaded, with its levels and its name. *)
Theorem C42_public_key_wire : forall L lv p, reads_public_keys L -> 1 <= lv <= 8 -> wf_pub p ->
  exists K, hss_from_public_bytes L (hss_pub_wire lv p) = Ok K /\ hp_levels K = lv /\ hp_name K = set_name (p_set p) /\
    forall flag, validate_hss_key K flag = Ok tt.
Proof.
  intros L lv p R H W. pose proof (R lv p H W) as E. destruct W as [V [W1 W2]].
  eexists. split.
  - apply public_key_exact. exists (p_set p), lv. split; [exact V|]. split; [exact E|]. split; [|reflexivity].
    unfold hss_pub_wire, pub_wire. rewrite !app_length, !be_len, W1, W2. unfold nlen. pose proof (set_pos _ V). lia.
  - split; [reflexivity|]. split; [reflexivity|]. intros flag. eapply key_levels; [|exact H].
    apply public_key_exact. exists (p_set p), lv. split; [exact V|]. split; [exact E|]. split; [|reflexivity].
    unfold hss_pub_wire, pub_wire. rewrite !app_length, !be_len, W1, W2. unfold nlen. pose proof (set_pos _ V). lia.
Qed.
Print Assumptions C42_public_key_wire.
Example C42_public_key_ex : reads_public_keys ref_lib /\ wf_pub (sample_pub s20) /\
  exists K, hss_from_public_bytes ref_lib (hss_pub_wire 3 (sample_pub s20)) = Ok K /\
    hp_name K = "hss_lms_shake_m24_h20_lmots_shake_n24_w4"%string.
Proof.
  split; [exact ref_public_keys|]. split; [apply sample_pub_wf; exact s20_ok|].
  destruct (C42_public_key_wire ref_lib 3 (sample_pub s20) ref_public_keys ltac:(lia) (sample_pub_wf _ s20_ok)) as [K [E [_ [N _]]]].
  exists K. split; [exact E|]. rewrite N. reflexivity.
Qed.

(** A loaded key is valid exactly when it has one to eight levels, whatever the flag. *)
Theorem C42_key_valid : forall L raw K flag, hss_from_public_bytes L raw = Ok K ->
  (validate_hss_key K flag = Ok tt <-> 1 <= hp_levels K <= 8).
Proof. exact key_levels. Qed.
Print Assumptions C42_key_valid.

(** [sig_size] is the length of every signature of a key all of whose trees have one parameter set. *)
Theorem C42_signature_length : forall L raw K s g, hss_from_public_bytes L raw = Ok K -> hp_name K = set_name s -> valid_set s ->
  wf_hss g -> uniform s g -> levels_of g = hp_levels K -> hss_sig_size K = Ok (Z.of_nat (length (hss_wire g))).
Proof.
  intros L raw K s g H N V W U E. unfold hss_sig_size. rewrite N, (hss_details_ok s V). cbn [of_opt bind]. rewrite (wire_len s g W U), E. reflexivity.
Qed.
Print Assumptions C42_signature_length.

(** The index of a signature: the leaf numbers read as digits, most significant first; it is refused when a leaf number
    is not below the tree size of the key's name, or the levels differ from those of the key. *)
Theorem C42_index : forall L s g levels, reads_signatures L -> valid_set s -> wf_hss g ->
  compute_hss_signature_index L (hss_wire g) (set_name s) levels =
  if forallb (fun q => q <? 2 ^ ls_h s) (leaves g) && (levels =? levels_of g)
  then Ok (radix (2 ^ ls_h s) (leaves g)) else Err EInvalidSignature.
Proof. exact index_exact. Qed.
Print Assumptions C42_index.

(** For trees of one parameter set it is the position of the signature among all those of the key. *)
Theorem C42_index_is_position : forall L s g, reads_signatures L -> wf_hss g -> uniform s g -> leaves_fit g ->
  compute_hss_signature_index L (hss_wire g) (set_name s) (levels_of g) = Ok (position (tree_leaves g)).
Proof.
  intros L s g R W U F. assert (V : valid_set s) by (destruct U as [_ <-]; destruct W as [_ [_ [V _]]]; exact V).
  rewrite (index_exact L s g (levels_of g) R V W), Z.eqb_refl, andb_true_r.
  pose proof (proj1 (uniform_fit s g U W) F) as F'.
  replace (forallb (fun q => q <? 2 ^ ls_h s) (leaves g)) with true.
  2:{ symmetry. apply forallb_forall. rewrite Forall_forall in F'. intros q I. apply Z.ltb_lt. apply F'. exact I. }
  f_equal. rewrite (position_radix (2 ^ ls_h s)) by (apply uniform_sizes; exact U). rewrite tree_leaves_snd. reflexivity.
Qed.
Print Assumptions C42_index_is_position.
Example C42_index_ex : reads_signatures ref_lib /\ wf_hss (two_levels s5 s5 3 4) /\ uniform s5 (two_levels s5 s5 3 4) /\
  compute_hss_signature_index ref_lib (hss_wire (two_levels s5 s5 3 4)) (set_name s5) 2 = Ok 100.
Proof.
  split; [exact ref_signatures|]. assert (W : wf_hss (two_levels s5 s5 3 4)) by (apply two_levels_wf; try exact s5_ok; lia).
  split; [exact W|]. split; [apply two_levels_uniform|].
  change 2 with (levels_of (two_levels s5 s5 3 4)). rewrite (C42_index ref_lib s5 _ _ ref_signatures s5_ok W). vm_compute. reflexivity.
Qed.

(** Two signatures with the same index have the same leaves, indices lie below the capacity, and the next leaves have
    the next index. *)
Theorem C42_index_unique : forall r qs qs', 0 < r -> length qs = length qs' ->
  Forall (fun q => 0 <= q < r) qs -> Forall (fun q => 0 <= q < r) qs' -> radix r qs = radix r qs' -> qs = qs'.
Proof. exact radix_inj. Qed.
Print Assumptions C42_index_unique.
Theorem C42_index_range : forall r qs, 0 < r -> Forall (fun q => 0 <= q < r) qs -> 0 <= radix r qs < r ^ Z.of_nat (length qs).
Proof. exact radix_range. Qed.
Print Assumptions C42_index_range.
Theorem C42_index_counts : forall L s g g', reads_signatures L -> wf_hss g -> wf_hss g' -> uniform s g -> uniform s g' -> leaves_fit g ->
  advance (2 ^ ls_h s) (leaves g) = Some (leaves g') ->
  exists i, compute_hss_signature_index L (hss_wire g) (set_name s) (levels_of g) = Ok i /\
            compute_hss_signature_index L (hss_wire g') (set_name s) (levels_of g) = Ok (i + 1).
Proof.
  intros L s g g' R W W' U U' F A. assert (V : valid_set s) by (destruct U as [_ <-]; destruct W as [_ [_ [V _]]]; exact V).
  assert (Hr : 0 < 2 ^ ls_h s) by (apply Z.pow_pos_nonneg; pose proof (set_pos s V); lia).
  pose proof (proj1 (uniform_fit s g U W) F) as F'. pose proof (advance_radix (2 ^ ls_h s) (leaves g) Hr F') as AR. rewrite A in AR.
  destruct AR as [E [HL F2]]. exists (radix (2 ^ ls_h s) (leaves g)).
  assert (EL : levels_of g = levels_of g') by (rewrite <- !leaves_len, HL; reflexivity).
  split; rewrite index_exact by assumption; rewrite ?EL, Z.eqb_refl, andb_true_r.
  - replace (forallb (fun q => q <? 2 ^ ls_h s) (leaves g)) with true; [reflexivity|].
    symmetry. apply forallb_forall. rewrite Forall_forall in F'. intros q I. apply Z.ltb_lt. apply F'. exact I.
  - replace (forallb (fun q => q <? 2 ^ ls_h s) (leaves g')) with true; [rewrite E; reflexivity|].
    symmetry. apply forallb_forall. rewrite Forall_forall in F2. intros q I. apply Z.ltb_lt. apply F2. exact I.
Qed.
Print Assumptions C42_index_counts.
Example C42_index_counts_ex : advance (2 ^ 5) (leaves (two_levels s5 s5 3 31)) = Some (leaves (two_levels s5 s5 4 0)).
Proof. vm_compute. reflexivity. Qed.

(** With trees of different heights the index is not the position: signatures are refused, or counted with gaps. *)
Theorem C42_mixed_heights_refused_refuted : ~ (forall L g, reads_signatures L -> wf_hss g -> leaves_fit g ->
  exists i, compute_hss_signature_index L (hss_wire g) (set_name (root_set g)) (levels_of g) = Ok i).
Proof.
  intros H. assert (W : wf_hss (two_levels s5 s10 0 100)) by (apply two_levels_wf; try exact s5_ok; try exact s10_ok; lia).
  destruct (H ref_lib (two_levels s5 s10 0 100) ref_signatures W) as [i E].
  - unfold leaves_fit. cbn [tree_leaves two_levels h_ups h_last map fst snd app sample_sig s_set s_q s5 s10 ls_h].
    repeat constructor; cbn [fst snd]; vm_compute; congruence.
  - change (root_set (two_levels s5 s10 0 100)) with s5 in E. rewrite (C42_index ref_lib s5 _ _ ref_signatures s5_ok W) in E. vm_compute in E. discriminate.
Qed.
Print Assumptions C42_mixed_heights_refused_refuted.
Theorem C42_mixed_heights_position_refuted : ~ (forall L g i, reads_signatures L -> wf_hss g -> leaves_fit g ->
  compute_hss_signature_index L (hss_wire g) (set_name (root_set g)) (levels_of g) = Ok i -> i = position (tree_leaves g)).
Proof.
  intros H. assert (W : wf_hss (two_levels s10 s5 1 0)) by (apply two_levels_wf; try exact s5_ok; try exact s10_ok; lia).
  specialize (H ref_lib (two_levels s10 s5 1 0) 1024 ref_signatures W).
  assert (X : 1024 = 32); [|discriminate]. apply H.
  - unfold leaves_fit. cbn [tree_leaves two_levels h_ups h_last map fst snd app sample_sig s_set s_q s5 s10 ls_h].
    repeat constructor; cbn [fst snd]; vm_compute; congruence.
  - change (root_set (two_levels s10 s5 1 0)) with s10. rewrite (C42_index ref_lib s10 _ _ ref_signatures s10_ok W). vm_compute. reflexivity.
Qed.
Print Assumptions C42_mixed_heights_position_refuted.

(** [get_leaf_index] reads the leaf of the lowest tree only: different signatures of a key share it. *)
Theorem C42_leaf_index : forall L g, reads_signatures L -> wf_hss g -> hss_leaf_index L (hss_wire g) = Ok (s_q (h_last g)).
Proof. intros L g R W. unfold hss_leaf_index. rewrite (R g W). reflexivity. Qed.
Print Assumptions C42_leaf_index.
Theorem C42_leaf_index_unique_refuted : ~ (forall L g g' s, reads_signatures L -> wf_hss g -> wf_hss g' -> uniform s g -> uniform s g' ->
  levels_of g = levels_of g' -> hss_leaf_index L (hss_wire g) = hss_leaf_index L (hss_wire g') -> leaves g = leaves g').
Proof.
  intros H. specialize (H ref_lib (two_levels s5 s5 0 0) (two_levels s5 s5 1 0) s5 ref_signatures).
  assert (W : wf_hss (two_levels s5 s5 0 0)) by (apply two_levels_wf; try exact s5_ok; lia).
  assert (W' : wf_hss (two_levels s5 s5 1 0)) by (apply two_levels_wf; try exact s5_ok; lia).
  specialize (H W W' (two_levels_uniform _ _ _) (two_levels_uniform _ _ _) eq_refl).
  rewrite (C42_leaf_index _ _ ref_signatures W), (C42_leaf_index _ _ ref_signatures W') in H. specialize (H eq_refl). discriminate.
Qed.
Print Assumptions C42_leaf_index_unique_refuted.

(** ** C78 *)
(** XMSS and XMSS^MT: with something after the index, exactly the first byte after it changes. *)
Theorem C78_xmss_signature : forall X x data out index, manipulate_stateful X data (SXmss x) true index = Ok out ->
  differ_only_at (x_index_bytes x) data out /\ firstn (x_index_bytes x) out = firstn (x_index_bytes x) data.
Proof. exact manip_xmss_sig. Qed.
Print Assumptions C78_xmss_signature.
Theorem C78_xmss_signature_total : forall X x data index, (x_index_bytes x < length data)%nat <->
  exists out, manipulate_stateful X data (SXmss x) true index = Ok out.
Proof. exact manip_xmss_total. Qed.
Print Assumptions C78_xmss_signature_total.

(** Setting an index: accepted when it fits; nothing but the index field changes, and the field holds the bytes of the
    number in reverse order, so that the reader sees the number with its bytes swapped. *)
Theorem C78_xmss_index : forall X x data i, (x_index_bytes x <= length data)%nat ->
  manipulate_stateful X data (SXmss x) false (Some i) =
  if (0 <=? i) && (i <? 256 ^ Z.of_nat (x_index_bytes x)) then Ok (le (x_index_bytes x) i ++ skipn (x_index_bytes x) data)
  else Err EValueError.
Proof. exact manip_xmss_index. Qed.
Print Assumptions C78_xmss_index.
Theorem C78_xmss_index_read : forall X x data i out, (x_index_bytes x <= length data)%nat ->
  manipulate_stateful X data (SXmss x) false (Some i) = Ok out ->
  same_outside 0 (x_index_bytes x) data out /\ from_be (firstn (x_index_bytes x) out) = swapped (x_index_bytes x) i.
Proof. exact manip_xmss_index_read. Qed.
Print Assumptions C78_xmss_index_read.
Definition any_lib (n : nat) : xmss_lib := {| xl_sig := fun _ => n; xl_pub := fun _ => 68%nat; xl_sec := fun _ => 140%nat; xl_total := fun x => 2 ^ xs_h x - 1 |}.
Theorem C78_index_read_back_refuted : ~ (forall X x data i out, xmss_set x -> 0 <= i < 2 ^ xs_h x ->
  manipulate_stateful X data (SXmss x) false (Some i) = Ok out -> xmss_leaf_index X x data = Ok 0 -> xmss_leaf_index X x out = Ok i).
Proof.
  intros H. specialize (H (any_lib 6) (xm Sha2 10 256) [0; 0; 0; 0; 5; 6] 1 [1; 0; 0; 0; 5; 6]).
  assert (S0 : xmss_set (xm Sha2 10 256)) by (split; [reflexivity|]; split; simpl; auto 10).
  specialize (H S0 ltac:(vm_compute; split; [discriminate | reflexivity]) eq_refl eq_refl). vm_compute in H. discriminate.
Qed.
Print Assumptions C78_index_read_back_refuted.

(** HSS, all trees with one parameter set: the change of the signature turns the type code of the message's one-time
    signature into an unassigned one; nothing else changes, in particular no leaf number. *)
Theorem C78_hss_signature : forall X s g index, wf_hss g -> uniform s g ->
  manipulate_stateful X (hss_wire g) (SHss (set_name s) (levels_of g)) true index = Ok (wire_with_type (2 ^ 24 + ots_code s) g) /\
  differ_only_at (length (hss_wire g) - length (sig_wire (h_last g)) + 4) (hss_wire g) (wire_with_type (2 ^ 24 + ots_code s) g) /\
  forall t, valid_set t -> ots_code t <> 2 ^ 24 + ots_code s.
Proof.
  intros X s g index W U. split; [apply manip_hss_sig; assumption|]. split; [apply wire_with_type_differs; assumption|].
  assert (V : valid_set s) by (destruct U as [_ <-]; destruct W as [_ [_ [V _]]]; exact V).
  intros t Vt. pose proof (ots_code_range s V). pose proof (ots_code_range t Vt). change (2 ^ 24) with 16777216. lia.
Qed.
Print Assumptions C78_hss_signature.
Theorem C78_hss_index : forall X s g i, wf_hss g -> uniform s g ->
  manipulate_stateful X (hss_wire g) (SHss (set_name s) (levels_of g)) false (Some i) =
  if (0 <=? i) && (i <? 2 ^ 32) then Ok (hss_wire (with_leaf (swapped 4 i) g)) else Err EValueError.
Proof. exact manip_hss_index. Qed.
Print Assumptions C78_hss_index.
Example C78_hss_ex : wf_hss (two_levels s20 s20 3 4) /\ uniform s20 (two_levels s20 s20 3 4) /\ swapped 4 1 = 2 ^ 24 /\ swapped 4 16843009 = 16843009.
Proof.
  split; [apply two_levels_wf; try exact s20_ok; lia|]. split; [apply two_levels_uniform|]. vm_compute. auto.
Qed.

(** Without an index, the size of the tree is written, to be out of range; the reader finds it out of range exactly for
    trees of height 5, 10 and 15. *)
Theorem C78_hss_default_index : forall X L s g, reads_signatures L -> wf_hss g -> uniform s g -> leaves_fit g ->
  exists out, manipulate_stateful X (hss_wire g) (SHss (set_name s) (levels_of g)) false None = Ok out /\
   (compute_hss_signature_index L out (set_name s) (levels_of g) = Err EInvalidSignature <-> ls_h s <= 15).
Proof.
  intros X L s g R W U F. assert (V : valid_set s) by (destruct U as [_ <-]; destruct W as [_ [_ [V _]]]; exact V).
  rewrite (manip_hss_default X s g W U). eexists. split; [reflexivity|].
  assert (HR : 0 <= swapped 4 (2 ^ ls_h s) < 2 ^ 32) by apply (swapped_range 4).
  pose proof (with_leaf_wf _ g HR W) as W'. rewrite (C42_index L s _ _ R V W').
  change (levels_of (with_leaf (swapped 4 (2 ^ ls_h s)) g)) with (levels_of g). rewrite Z.eqb_refl, andb_true_r.
  change (leaves (with_leaf (swapped 4 (2 ^ ls_h s)) g)) with (map (fun p => s_q (fst p)) (h_ups g) ++ [swapped 4 (2 ^ ls_h s)]).
  pose proof (proj1 (uniform_fit s g U W) F) as F'. unfold leaves in F'. apply Forall_app in F'. destruct F' as [F' _].
  rewrite forallb_app. replace (forallb (fun q => q <? 2 ^ ls_h s) (map (fun p => s_q (fst p)) (h_ups g))) with true.
  2:{ symmetry. apply forallb_forall. rewrite Forall_forall in F'. intros q I. apply Z.ltb_lt. apply F'. exact I. }
  cbn [forallb andb]. rewrite andb_true_r. destruct V as [_ [_ V]]. rewrite (default_leaf _ V). simpl in V.
  destruct V as [<-|[<-|[<-|[<-|[<-|[]]]]]].
  - change (5 =? 5) with true. cbv iota. change (2 ^ 29 <? 2 ^ 5) with false. cbv iota. split; [intros _; lia | reflexivity].
  - change (10 =? 5) with false. change (10 =? 10) with true. cbv iota. change (2 ^ 18 <? 2 ^ 10) with false. cbv iota. split; [intros _; lia | reflexivity].
  - change (15 =? 5) with false. change (15 =? 10) with false. change (15 =? 15) with true. cbv iota. change (2 ^ 23 <? 2 ^ 15) with false. cbv iota. split; [intros _; lia | reflexivity].
  - change (20 =? 5) with false. change (20 =? 10) with false. change (20 =? 15) with false. change (20 =? 20) with true. cbv iota.
    change (2 ^ 12 <? 2 ^ 20) with true. cbv iota. split; [discriminate | lia].
  - change (25 =? 5) with false. change (25 =? 10) with false. change (25 =? 15) with false. change (25 =? 20) with false. cbv iota.
    change (2 <? 2 ^ 25) with true. cbv iota. split; [discriminate | lia].
Qed.
Print Assumptions C78_hss_default_index.
Example C78_hss_default_ex : reads_signatures ref_lib /\ wf_hss (two_levels s20 s20 3 4) /\ leaves_fit (two_levels s20 s20 3 4).
Proof.
  split; [exact ref_signatures|]. split; [apply two_levels_wf; try exact s20_ok; lia|].
  unfold leaves_fit. cbn [tree_leaves two_levels h_ups h_last map fst snd app sample_sig s_set s_q s20 ls_h].
  repeat constructor; cbn [fst snd]; vm_compute; congruence.
Qed.

(** ** C79 *)
(** XMSS and XMSS^MT keys: the index field is replaced by the big-endian index, everything else is kept, and the public
    key stays the same; an index that does not fit is an OverflowError. *)
Theorem C79_xmss_exact : forall X K P oid idx rest i, xk_raw K = oid ++ idx ++ rest -> length oid = 4%nat -> length idx = x_index_bytes (xk_set K) ->
  length (xk_raw K) = xl_sec X (xk_set K) -> x_public_key X K = Ok P ->
  modify_xmss X K false (Some i) false =
  if (0 <=? i) && (i <? 256 ^ Z.of_nat (x_index_bytes (xk_set K)))
  then Ok {| xk_set := xk_set K; xk_raw := oid ++ be (x_index_bytes (xk_set K)) i ++ rest; xk_pub := Some (xp_raw P); xk_used := [] |}
  else Err EOverflow.
Proof. exact modify_exact. Qed.
Print Assumptions C79_xmss_exact.
Theorem C79_xmss_public_key : forall X K K' P last index, x_public_key X K = Ok P -> modify_xmss X K last index false = Ok K' -> x_public_key X K' = Ok P.
Proof.
  intros X K K' P last index HP H. unfold modify_xmss in H. destruct (get_index X (xk_set K) last index) as [ib|]; cbn [bind] in H; [|discriminate].
  rewrite HP in H. cbn [bind] in H. unfold x_private in H. destruct (guard _ EInvalidKeyData) as [[]|]; cbn [bind] in H; [|discriminate].
  injection H as <-. eapply public_same; [exact HP | reflexivity].
Qed.
Print Assumptions C79_xmss_public_key.
Definition sample_secret : bytes := xmss_secret (xm Sha2 10 256) (be 4 1) (be 4 0) (repeat 1 32) (repeat 2 32) (repeat 3 32) (repeat 4 32) (repeat 0 4).
Definition sample_key : xpriv := {| xk_set := xm Sha2 10 256; xk_raw := sample_secret; xk_pub := None; xk_used := [] |}.
Example C79_xmss_ex : exists P K', x_public_key (any_lib 9) sample_key = Ok P /\ modify_xmss (any_lib 9) sample_key false (Some 258) false = Ok K' /\
  slice 4 8 (xk_raw K') = [0; 0; 1; 2] /\ xk_raw K' <> xk_raw sample_key.
Proof. eexists. eexists. split; [reflexivity|]. split; [reflexivity|]. split; [reflexivity|]. discriminate. Qed.

(** [_change_index] does the same to the bytes of the key. *)
Theorem C79_change_index : forall X K P oid idx rest i, xk_raw K = oid ++ idx ++ rest -> length oid = 4%nat -> length idx = x_index_bytes (xk_set K) ->
  is_bytes idx = true -> length (xk_raw K) = xl_sec X (xk_set K) -> x_public_key X K = Ok P -> 0 <= i < 256 ^ Z.of_nat (x_index_bytes (xk_set K)) ->
  exists K', (if xs_d (xk_set K) =? 0 then xmss_change_index X K i else mt_change_index X K i) = Ok K' /\ xk_set K' = xk_set K /\ xk_raw K' = oid ++ be (x_index_bytes (xk_set K)) i ++ rest /\ x_public_key X K' = Ok P.
Proof.
  intros X K P oid idx rest i R H1 H2 HB HL HP Hi.
  assert (EM : forall k, k = x_index_bytes (xk_set K) -> x_private X (xk_set K) (firstn 4 (xk_raw K) ++ be k i ++ skipn (4 + k) (xk_raw K)) (Some (xp_raw P)) =
     Ok {| xk_set := xk_set K; xk_raw := oid ++ be k i ++ rest; xk_pub := Some (xp_raw P); xk_used := [] |}).
  { intros k ->. rewrite R in *. rewrite (firstn_app_exact _ oid _ _ H1).
    rewrite (app_assoc oid idx rest), (skipn_app_exact _ (oid ++ idx) rest) by (rewrite app_length; lia). unfold x_private.
    assert (E : length (oid ++ be (x_index_bytes (xk_set K)) i ++ rest) = xl_sec X (xk_set K)) by (rewrite <- HL, !app_length, be_len, H2; reflexivity).
    rewrite E, Nat.eqb_refl. reflexivity. }
  assert (TB : to_be (x_index_bytes (xk_set K)) i = Ok (be (x_index_bytes (xk_set K)) i)) by (apply to_be_ok; split; [exact Hi | reflexivity]).
  destruct (xs_d (xk_set K) =? 0) eqn:D.
  - assert (K4 : x_index_bytes (xk_set K) = 4%nat) by (unfold x_index_bytes; rewrite D; reflexivity).
    unfold xmss_change_index. destruct (from_be (slice 4 8 (xk_raw K)) =? i) eqn:C.
    + exists K. split; [reflexivity|]. split; [reflexivity|]. split; [|exact HP]. apply Z.eqb_eq in C. rewrite R in C.
      assert (SL : slice 4 8 (oid ++ idx ++ rest) = idx) by (apply slice_at; lia). rewrite SL in C. rewrite R, <- C, <- H2, be_from_be by exact HB. reflexivity.
    + rewrite K4 in *. rewrite TB. cbn [bind]. rewrite HP. cbn [bind]. specialize (EM 4%nat eq_refl). change (4 + 4)%nat with 8%nat in EM. rewrite EM.
      eexists. split; [reflexivity|]. split; [reflexivity|]. split; [reflexivity|]. eapply public_same; [exact HP | reflexivity].
  - assert (KM : x_index_bytes (xk_set K) = ceil8 (xs_h (xk_set K))) by (unfold x_index_bytes; rewrite D; reflexivity).
    unfold mt_change_index. cbv zeta. rewrite <- KM, TB. cbn [bind]. rewrite HP. cbn [bind]. rewrite (EM _ eq_refl).
    eexists. split; [reflexivity|]. split; [reflexivity|]. split; [reflexivity|]. eapply public_same; [exact HP | reflexivity].
Qed.
Print Assumptions C79_change_index.

(** Without an index the number of signatures is written, so that none is left; [last_index] has no effect then, and
    with an index that index is ignored. *)
Theorem C79_exhaust : forall X K last, modify_xmss X K last None false = modify_xmss X K false (Some (xl_total X (xk_set K))) false.
Proof. exact modify_default. Qed.
Print Assumptions C79_exhaust.
Theorem C79_last_index : forall X K i, modify_xmss X K true (Some i) false = modify_xmss X K false (Some (xl_total X (xk_set K) - 1)) false.
Proof. exact modify_last. Qed.
Print Assumptions C79_last_index.
(** [last_index=True] alone does not leave the last index. *)
Theorem C79_last_index_alone_refuted : ~ (forall X K P, x_public_key X K = Ok P ->
  modify_xmss X K true None false = modify_xmss X K false (Some (xl_total X (xk_set K) - 1)) false).
Proof.
  intros H. destruct (x_public_key (any_lib 9) sample_key) as [P|] eqn:E; [|vm_compute in E; discriminate].
  specialize (H (any_lib 9) sample_key P E). vm_compute in H. discriminate.
Qed.
Print Assumptions C79_last_index_alone_refuted.

(** A recorded key: the check of the index lets one value too many through. *)
Theorem C79_used_index : forall used i, (0 <= i < Z.of_nat (length used) -> exists b, pick_used used (Some i) = Ok b /\ nth_error used (Z.to_nat i) = Some b) /\
  (i = Z.of_nat (length used) -> pick_used used (Some i) = Err EIndexError) /\ (Z.of_nat (length used) < i -> pick_used used (Some i) = Err EValueError).
Proof.
  intros used i. unfold pick_used. split; [|split].
  - intros H. replace (Z.of_nat (length used) <? i) with false by (symmetry; apply Z.ltb_ge; lia). cbn [negb guard bind]. unfold py_index.
    replace (i <? 0) with false by (symmetry; apply Z.ltb_ge; lia). cbv iota zeta.
    replace ((0 <=? i) && (i <? Z.of_nat (length used))) with true by (symmetry; apply andb_true_iff; split; [apply Z.leb_le | apply Z.ltb_lt]; lia).
    destruct (nth_error used (Z.to_nat i)) as [b|] eqn:E; [exists b; auto|]. apply nth_error_None in E. lia.
  - intros ->. replace (Z.of_nat (length used) <? Z.of_nat (length used)) with false by (symmetry; apply Z.ltb_ge; lia). cbn [negb guard bind]. unfold py_index.
    replace (Z.of_nat (length used) <? 0) with false by (symmetry; apply Z.ltb_ge; lia). cbv iota zeta. rewrite Z.ltb_irrefl, andb_false_r. reflexivity.
  - intros H. replace (Z.of_nat (length used) <? i) with true by (symmetry; apply Z.ltb_lt; lia). reflexivity.
Qed.
Print Assumptions C79_used_index.
(** Without index, the key recorded last. *)
Theorem C79_used_default : forall used b, pick_used (used ++ [b])%list None = Ok b /\ pick_used [] None = Err EIndexError.
Proof. exact used_default. Qed.
Print Assumptions C79_used_default.

(** HSS keys: a target below the capacity becomes the next leaf of the root tree, and of no other tree; a target at or
    above the capacity spends every tree. *)
Theorem C79_hss_exact : forall L K s r i, keeps_keys L -> wf_state (s :: r) (hk_state K) -> 0 <= i ->
  (i < capacity (s :: r) -> i <= 2 ^ ls_h s) ->
  modify_hss L K false (Some i) false =
  Ok {| hk_name := set_name s; hk_used := [];
        hk_state := (fst (hk_state K), if i <? capacity (s :: r) then root_at i (snd (hk_state K)) else all_spent (s :: r) (snd (hk_state K))) |}.
Proof. exact modify_hss_exact. Qed.
Print Assumptions C79_hss_exact.
Theorem C79_hss_exhaust : forall L K s r last, keeps_keys L -> wf_state (s :: r) (hk_state K) ->
  modify_hss L K last None false =
  Ok {| hk_name := set_name s; hk_used := []; hk_state := (fst (hk_state K), all_spent (s :: r) (snd (hk_state K))) |}.
Proof.
  intros L K s r last KK W. rewrite (modify_hss_default L K (s :: r) last KK W).
  assert (HC : 1 <= capacity (s :: r)) by (apply capacity_pos; apply W).
  rewrite (modify_hss_exact L K s r (capacity (s :: r)) KK W); [|lia|lia]. rewrite Z.ltb_irrefl. reflexivity.
Qed.
Print Assumptions C79_hss_exhaust.
Definition sample_tree (s : lset) (q : Z) : tree := {| t_lms := be 4 (lms_code s); t_lmots := be 4 (ots_code s); t_q := q; t_rest := repeat 5 48 |}.
Definition sample_hss : hss_priv := {| hk_name := set_name s5; hk_state := (2, [sample_tree s5 1; sample_tree s5 3]); hk_used := [be 4 2] |}.
Lemma sample_hss_wf : wf_state [s5; s5] (hk_state sample_hss).
Proof.
  split; [reflexivity|]. split; [simpl; lia|]. split; [constructor; [exact s5_ok | constructor; [exact s5_ok | constructor]]|].
  repeat constructor; cbn [t_q sample_tree]; vm_compute; congruence.
Qed.
Example C79_hss_ex : keeps_keys ref_lib /\ wf_state [s5; s5] (hk_state sample_hss) /\
  exists K, modify_hss ref_lib sample_hss false (Some 7) false = Ok K /\ map t_q (snd (hk_state K)) = [7; 3].
Proof.
  split; [exact ref_keys|]. split; [exact sample_hss_wf|]. rewrite (C79_hss_exact ref_lib sample_hss s5 [s5] 7 ref_keys sample_hss_wf);
    [|lia|vm_compute; congruence]. eexists. split; [reflexivity|]. vm_compute. reflexivity.
Qed.
(** So with two or more levels the lowest tree, which signs the next message, does not move to the requested index. *)
Theorem C79_hss_index_refuted : ~ (forall L K K' ss i, keeps_keys L -> wf_state ss (hk_state K) -> 0 <= i < capacity ss ->
  modify_hss L K false (Some i) false = Ok K' -> forall t, nth_error (snd (hk_state K')) (length ss - 1) = Some t ->
  forall s, nth_error ss (length ss - 1) = Some s -> t_q t = i mod 2 ^ ls_h s).
Proof.
  intros H.
  assert (X : 3 = 7); [|discriminate].
  apply (H ref_lib sample_hss _ [s5; s5] 7 ref_keys sample_hss_wf ltac:(vm_compute; split; [discriminate | reflexivity])
    (C79_hss_exact ref_lib sample_hss s5 [s5] 7 ref_keys sample_hss_wf ltac:(lia) ltac:(vm_compute; congruence)) (sample_tree s5 3)) with (s := s5).
  - vm_compute. reflexivity.
  - reflexivity.
Qed.
Print Assumptions C79_hss_index_refuted.
(** The recorded "used keys" of an HSS key are four-byte leaf numbers, which are not private keys. *)
Theorem C79_hss_used_refuted : ~ (forall L K index b, keeps_keys L -> pick_used (hk_used K) index = Ok b ->
  exists K', modify_hss L K false index true = Ok K').
Proof.
  intros H. destruct (H ref_lib sample_hss None (be 4 2) ref_keys eq_refl) as [K' E]. vm_compute in E. discriminate.
Qed.
Print Assumptions C79_hss_used_refuted.

(** ** C80 *)
(** XMSS public keys: accepted exactly with a registered number and the length of its parameter set. *)
Theorem C80_xmss_public : forall raw K, xmss_from_public_bytes raw = Ok K <->
  xmss_set (xp_set K) /\ from_be (firstn 4 raw) = xmss_number (xp_set K) /\
  Z.of_nat (length raw) = 4 + 2 * (xs_bits (xp_set K) / 8) /\ xp_raw K = raw.
Proof. exact xmss_public_exact. Qed.
Print Assumptions C80_xmss_public.
Theorem C80_xmss_public_error : forall raw e, xmss_from_public_bytes raw = Err e -> e = EInvalidKeyData.
Proof. exact xmss_public_err. Qed.
Print Assumptions C80_xmss_public_error.
Example C80_xmss_public_ex : xmss_from_public_bytes (be 4 13 ++ repeat 3 48) = Ok {| xp_set := xm Sha2 10 192; xp_raw := be 4 13 ++ repeat 3 48 |}.
Proof. vm_compute. reflexivity. Qed.
(** XMSS^MT public keys: only the sets with a table entry. *)
Theorem C80_mt_public : forall X raw K, mt_from_public_bytes X raw = Ok K <->
  mt_known (xp_set K) /\ from_be (firstn 4 raw) = mt_number (xp_set K) /\
  Z.of_nat (length raw) = 4 + 2 * (xs_bits (xp_set K) / 8) /\ length raw = xl_pub X (xp_set K) /\ xp_raw K = raw.
Proof. exact mt_public_exact. Qed.
Print Assumptions C80_mt_public.
(** Other numbers, registered ones among them, end in a KeyError. *)
Theorem C80_mt_keyerror : forall X raw, mt_from_public_bytes X raw = Err EKeyError <->
  ~ exists x, mt_known x /\ from_be (firstn 4 raw) = mt_number x.
Proof. exact mt_public_keyerror. Qed.
Print Assumptions C80_mt_keyerror.
Theorem C80_mt_registered_refuted : ~ (forall X x raw, mt_set x -> from_be (firstn 4 raw) = mt_number x ->
  Z.of_nat (length raw) = 4 + 2 * (xs_bits x / 8) -> length raw = xl_pub X x -> exists K, mt_from_public_bytes X raw = Ok K).
Proof.
  intros H. destruct (H {| xl_sig := fun _ => 0%nat; xl_pub := fun _ => 52%nat; xl_sec := fun _ => 0%nat; xl_total := fun _ => 0 |} (xmt Sha2 192 20 2) (be 4 33 ++ repeat 0 48)) as [K E].
  - split; simpl; auto 10.
  - vm_compute. reflexivity.
  - vm_compute. reflexivity.
  - vm_compute. reflexivity.
  - vm_compute in E. discriminate.
Qed.
Print Assumptions C80_mt_registered_refuted.

(** The public key of a secret key in the layout of liboqs is its identifier and two public values, and loads again as
    the same key. *)
Theorem C80_xmss_secret : forall X x oid idx ss sp v1 v2 rest, xmss_set x -> length oid = 4%nat -> from_be oid = xmss_number x -> length idx = 4%nat ->
  part x ss -> part x sp -> part x v1 -> part x v2 -> length (xmss_secret x oid idx ss sp v1 v2 rest) = xl_sec X x ->
  (4 + 3 * out_len x < xl_sec X x)%nat ->
  exists K P, xmss_from_private_bytes X (xmss_secret x oid idx ss sp v1 v2 rest) = Ok K /\ x_public_key X K = Ok P /\
    xp_raw P = oid ++ v1 ++ v2 /\ xmss_from_public_bytes (xp_raw P) = Ok P.
Proof. exact xmss_roundtrip. Qed.
Print Assumptions C80_xmss_secret.
Theorem C80_mt_secret : forall X x oid idx ss sp v1 v2 rest, mt_known x -> length oid = 4%nat -> from_be oid = mt_number x -> length idx = x_index_bytes x ->
  part x ss -> part x sp -> part x v1 -> part x v2 -> length (xmss_secret x oid idx ss sp v1 v2 rest) = xl_sec X x ->
  xl_pub X x = (4 + 2 * out_len x)%nat ->
  exists K P, mt_from_private_bytes X (xmss_secret x oid idx ss sp v1 v2 rest) = Ok K /\ x_public_key X K = Ok P /\
    xp_raw P = oid ++ v1 ++ v2 /\ mt_from_public_bytes X (xp_raw P) = Ok P.
Proof. exact mt_roundtrip. Qed.
Print Assumptions C80_mt_secret.
Example C80_secret_ex : exists K P, xmss_from_private_bytes (any_lib 9) sample_secret = Ok K /\ x_public_key (any_lib 9) K = Ok P /\
  xp_raw P = be 4 1 ++ repeat 3 32 ++ repeat 4 32.
Proof. eexists. eexists. split; [vm_compute; reflexivity|]. split; vm_compute; reflexivity. Qed.
Example C80_mt_secret_ex : exists K P,
  mt_from_private_bytes (any_lib 9) (xmss_secret (xmt Sha2 256 20 2) (be 4 1) (be 3 0) (repeat 1 32) (repeat 2 32) (repeat 3 32) (repeat 4 32) (repeat 0 5)) = Ok K /\
  x_public_key (any_lib 9) K = Ok P /\ xp_raw P = be 4 1 ++ repeat 3 32 ++ repeat 4 32 /\ mt_from_public_bytes (any_lib 9) (xp_raw P) = Ok P.
Proof. eexists. eexists. split; [vm_compute; reflexivity|]. split; [vm_compute; reflexivity|]. split; vm_compute; reflexivity. Qed.

(** Keys in certificate templates: XMSS and XMSS^MT keys exactly of the approved hash functions, without parameters
    and with the right identifier; HSS keys exactly with one to eight levels, whatever the two settings. *)
Theorem C80_template_xmss : forall ps oid x a e, validate_template_key ps oid (PXmss x) a e = Ok tt <->
  ps = false /\ oid = true /\ xs_hash x <> ShakeP /\ (xs_bits x = 192 \/ xs_bits x = 256).
Proof. exact template_xmss. Qed.
Print Assumptions C80_template_xmss.
Theorem C80_template_hss : forall L raw K ps oid a e, hss_from_public_bytes L raw = Ok K ->
  (validate_template_key ps oid (PHss K) a e = Ok tt <-> ps = false /\ oid = true /\ 1 <= hp_levels K <= 8).
Proof. exact template_hss. Qed.
Print Assumptions C80_template_hss.
Theorem C80_template_error : forall L raw K ps oid a e ex,
  hss_from_public_bytes L raw = Ok K -> validate_template_key ps oid (PHss K) a e = Err ex -> ex = EBadCertTemplate.
Proof. exact template_error. Qed.
Print Assumptions C80_template_error.
(** Of the approved XMSS^MT sets only those of SHA-256 with full output can be loaded. *)
Theorem C80_mt_approved_loadable : forall X raw K a e, mt_from_public_bytes X raw = Ok K ->
  (validate_template_key false true (PXmss (xp_set K)) a e = Ok tt <-> xs_hash (xp_set K) = Sha2 /\ xs_bits (xp_set K) = 256).
Proof.
  intros X raw K a e H. apply mt_public_exact in H. destruct H as [[M [B N]] _]. rewrite template_xmss. split.
  - intros [_ [_ [H1 H2]]]. split; [destruct (xs_hash (xp_set K)); congruence | destruct B, H2; congruence].
  - intros [E1 E2]. rewrite E1, E2. repeat split; auto; discriminate.
Qed.
Print Assumptions C80_mt_approved_loadable.

(** The index of an XMSS^MT signature is the number in its first bytes. *)
Theorem C78_mt_index : forall x i rest, 0 <= i < 256 ^ Z.of_nat (ceil8 (xs_h x)) -> (4 <= ceil8 (xs_h x) + length rest)%nat ->
  mt_leaf_index x (be (ceil8 (xs_h x)) i ++ rest) = Ok i.
Proof. exact mt_index. Qed.
Print Assumptions C78_mt_index.
