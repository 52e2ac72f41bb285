(** Loading XMSS and XMSS^MT keys. *)
From Coq Require Import String Ascii Arith.
From Verif Require Import Prelude PreludeFacts StfModel StfSpec StfProofs StfHss StfMore.
Open Scope Z_scope.
Local Notation length := List.length.

Lemma xmss_lookup : forall i x, id_lookup xmss_ids i = Some x <-> xmss_set x /\ i = xmss_number x.
Proof.
  intros i x. split.
  - intros H. apply id_some in H. split; [apply in_xmss; unfold all_xmss; apply in_map_iff; exists (i, x); auto|].
    assert (T : forallb (fun p => fst p =? xmss_number (snd p)) xmss_ids = true) by (vm_compute; reflexivity).
    rewrite forallb_forall in T. specialize (T _ H). apply Z.eqb_eq in T. exact T.
  - intros [H ->]. apply in_xmss in H.
    assert (T : forallb (fun x => match id_lookup xmss_ids (xmss_number x) with Some y => xset_eqb y x | None => false end) all_xmss = true) by (vm_compute; reflexivity).
    rewrite forallb_forall in T. specialize (T _ H). destruct (id_lookup xmss_ids (xmss_number x)); [|discriminate]. apply xset_eqb_eq in T. congruence.
Qed.
Lemma mt_lookup : forall i x, id_lookup xmssmt_ids i = Some x <-> mt_set x /\ i = mt_number x.
Proof.
  intros i x. split.
  - intros H. apply id_some in H. split; [apply in_mt; unfold all_mt; apply in_map_iff; exists (i, x); auto|].
    assert (T : forallb (fun p => fst p =? mt_number (snd p)) xmssmt_ids = true) by (vm_compute; reflexivity).
    rewrite forallb_forall in T. specialize (T _ H). apply Z.eqb_eq in T. exact T.
  - intros [H ->]. apply in_mt in H.
    assert (T : forallb (fun x => match id_lookup xmssmt_ids (mt_number x) with Some y => xset_eqb y x | None => false end) all_mt = true) by (vm_compute; reflexivity).
    rewrite forallb_forall in T. specialize (T _ H). destruct (id_lookup xmssmt_ids (mt_number x)); [|discriminate]. apply xset_eqb_eq in T. congruence.
Qed.

Lemma xmss_public_exact : forall raw K, xmss_from_public_bytes raw = Ok K <->
  xmss_set (xp_set K) /\ from_be (firstn 4 raw) = xmss_number (xp_set K) /\
  Z.of_nat (length raw) = 4 + 2 * (xs_bits (xp_set K) / 8) /\ xp_raw K = raw.
Proof.
  intros raw K. unfold xmss_from_public_bytes.
  assert (P : forall x, xmss_set x -> 0 <= xs_bits x / 8).
  { intros x H. apply in_xmss in H. assert (T : forallb (fun x => 0 <=? xs_bits x / 8) all_xmss = true) by (vm_compute; reflexivity).
    rewrite forallb_forall in T. apply Z.leb_le. apply T. exact H. }
  split.
  - intros H. destruct (id_lookup xmss_ids (from_be (firstn 4 raw))) as [x|] eqn:E; cbn [of_opt bind] in H; [|discriminate].
    apply xmss_lookup in E. destruct E as [V E]. unfold xmss_public in H.
    destruct (guard (length raw =? xmss_key_size x)%nat EInvalidKeyData) as [[]|] eqn:G; cbn [bind] in H; [|discriminate].
    apply guard_ok in G. apply Nat.eqb_eq in G. injection H as <-. cbn [xp_set xp_raw]. split; [exact V|]. split; [exact E|]. split; [|reflexivity].
    unfold xmss_key_size, out_len in G. specialize (P x V). lia.
  - intros [V [E [HL HR]]]. destruct K as [x r]. cbn [xp_set xp_raw] in *. subst r.
    rewrite (proj2 (xmss_lookup _ _) (conj V E)). cbn [of_opt bind]. unfold xmss_public.
    replace (length raw =? xmss_key_size x)%nat with true; [reflexivity|]. symmetry. apply Nat.eqb_eq.
    unfold xmss_key_size, out_len. specialize (P x V). lia.
Qed.
Lemma xmss_public_err : forall raw e, xmss_from_public_bytes raw = Err e -> e = EInvalidKeyData.
Proof.
  intros raw e H. unfold xmss_from_public_bytes in H. destruct (id_lookup _ _); cbn [of_opt bind] in H; [|congruence].
  unfold xmss_public in H. destruct (_ =? _)%nat; cbn [guard bind] in H; congruence.
Qed.
Lemma mt_out : forall x, mt_known x -> Z.of_nat (mt_n x) = xs_bits x / 8.
Proof.
  intros x [_ [[H|H] _]]; unfold mt_n; rewrite H; reflexivity.
Qed.
Lemma mt_public_exact : forall X raw K, mt_from_public_bytes X raw = Ok K <->
  mt_known (xp_set K) /\ from_be (firstn 4 raw) = mt_number (xp_set K) /\
  Z.of_nat (length raw) = 4 + 2 * (xs_bits (xp_set K) / 8) /\ length raw = xl_pub X (xp_set K) /\ xp_raw K = raw.
Proof.
  intros X raw K. unfold mt_from_public_bytes. split.
  - intros H. destruct (id_lookup xmssmt_ids (from_be (firstn 4 raw))) as [x|] eqn:E; cbn [of_opt bind] in H; [|discriminate].
    apply mt_lookup in E. destruct E as [V E]. destruct (in_mt_details x) eqn:D; cbn [guard bind] in H; [|discriminate].
    apply (mt_details_exact x V) in D.
    destruct (guard (length raw =? mt_n x * 2 + 4)%nat EInvalidKeyData) as [[]|] eqn:G; cbn [bind] in H; [|discriminate].
    apply guard_ok in G. apply Nat.eqb_eq in G. unfold mt_public in H.
    destruct (guard (length raw =? xl_pub X x)%nat EInvalidKeyData) as [[]|] eqn:G2; cbn [bind] in H; [|discriminate].
    apply guard_ok in G2. apply Nat.eqb_eq in G2. injection H as <-. cbn [xp_set xp_raw]. pose proof (mt_out x D).
    split; [exact D|]. split; [exact E|]. split; [lia|]. split; [exact G2 | reflexivity].
  - intros [V [E [HL [HX HR]]]]. destruct K as [x r]. cbn [xp_set xp_raw] in *. subst r.
    rewrite (proj2 (mt_lookup _ _) (conj (proj1 V) E)). cbn [of_opt bind]. rewrite (proj2 (mt_details_exact x (proj1 V)) V). cbn [guard bind].
    pose proof (mt_out x V). replace (length raw =? mt_n x * 2 + 4)%nat with true by (symmetry; apply Nat.eqb_eq; lia). cbn [guard bind].
    unfold mt_public. rewrite HX, Nat.eqb_refl. reflexivity.
Qed.
Lemma mt_public_keyerror : forall X raw, mt_from_public_bytes X raw = Err EKeyError <->
  ~ exists x, mt_known x /\ from_be (firstn 4 raw) = mt_number x.
Proof.
  intros X raw. unfold mt_from_public_bytes. split.
  - intros H [x [V E]]. rewrite (proj2 (mt_lookup _ _) (conj (proj1 V) E)) in H. cbn [of_opt bind] in H.
    rewrite (proj2 (mt_details_exact x (proj1 V)) V) in H. cbn [guard bind] in H.
    destruct (_ =? _)%nat; cbn [guard bind] in H; [|discriminate]. unfold mt_public in H. destruct (_ =? _)%nat; cbn [guard bind] in H; discriminate.
  - intros H. destruct (id_lookup xmssmt_ids (from_be (firstn 4 raw))) as [x|] eqn:E; cbn [of_opt bind]; [|reflexivity].
    apply mt_lookup in E. destruct E as [V E]. destruct (in_mt_details x) eqn:D; cbn [guard bind]; [|reflexivity].
    exfalso. apply H. exists x. split; [apply (mt_details_exact x V); exact D | exact E].
Qed.

Lemma out_len_Z : forall x, Z.of_nat (out_len x) = Z.max 0 (xs_bits x / 8).
Proof. intros. unfold out_len. lia. Qed.

(** A secret key, its public key, and the public key loaded again. *)
Definition part (x : xset) (b : bytes) : Prop := length b = out_len x.
Lemma xmss_roundtrip : forall X x oid idx ss sp v1 v2 rest, xmss_set x -> length oid = 4%nat -> from_be oid = xmss_number x -> length idx = 4%nat ->
  part x ss -> part x sp -> part x v1 -> part x v2 -> length (xmss_secret x oid idx ss sp v1 v2 rest) = xl_sec X x ->
  (4 + 3 * out_len x < xl_sec X x)%nat ->
  exists K P, xmss_from_private_bytes X (xmss_secret x oid idx ss sp v1 v2 rest) = Ok K /\ x_public_key X K = Ok P /\
    xp_raw P = oid ++ v1 ++ v2 /\ xmss_from_public_bytes (xp_raw P) = Ok P.
Proof.
  intros X x oid idx ss sp v1 v2 rest V H1 HN H2 H3 H4 H5 H6 HL HS.
  exists {| xk_set := x; xk_raw := xmss_secret x oid idx ss sp v1 v2 rest; xk_pub := None; xk_used := [] |}.
  exists {| xp_set := x; xp_raw := oid ++ v1 ++ v2 |}. split; [|split; [|split; [reflexivity|]]].
  - unfold xmss_from_private_bytes. replace (firstn 4 (xmss_secret x oid idx ss sp v1 v2 rest)) with oid by (symmetry; apply firstn_app_exact; exact H1).
    rewrite (proj2 (xmss_lookup _ _) (conj V HN)). cbn [of_opt bind]. rewrite HL.
    replace (xl_sec X x <? 4 + 3 * out_len x)%nat with false by (symmetry; apply Nat.ltb_ge; lia).
    replace (xl_sec X x =? 4 + 3 * out_len x)%nat with false by (symmetry; apply Nat.eqb_neq; lia). cbn [negb guard bind].
    unfold x_private. rewrite HL, Nat.eqb_refl. reflexivity.
  - unfold x_public_key. cbn [xk_pub xk_set xk_raw]. assert (D : xs_d x = 0) by apply V.
    rewrite (xmss_pk x oid idx ss sp v1 v2 rest D H1 H2 H3 H4 H5 H6). cbn [bind]. rewrite D, Z.eqb_refl. unfold xmss_public.
    replace (length (oid ++ v1 ++ v2) =? xmss_key_size x)%nat with true; [reflexivity|]. symmetry. apply Nat.eqb_eq. unfold part, xmss_key_size in *. rewrite !app_length. lia.
  - unfold xmss_from_public_bytes. cbn [xp_raw]. rewrite (firstn_app_exact _ oid _ _ H1), (proj2 (xmss_lookup _ _) (conj V HN)). cbn [of_opt bind].
    unfold xmss_public. replace (length (oid ++ v1 ++ v2) =? xmss_key_size x)%nat with true; [reflexivity|]. symmetry. apply Nat.eqb_eq. unfold part, xmss_key_size in *. rewrite !app_length. lia.
Qed.
Lemma mt_roundtrip : forall X x oid idx ss sp v1 v2 rest, mt_known x -> length oid = 4%nat -> from_be oid = mt_number x -> length idx = x_index_bytes x ->
  part x ss -> part x sp -> part x v1 -> part x v2 -> length (xmss_secret x oid idx ss sp v1 v2 rest) = xl_sec X x ->
  xl_pub X x = (4 + 2 * out_len x)%nat ->
  exists K P, mt_from_private_bytes X (xmss_secret x oid idx ss sp v1 v2 rest) = Ok K /\ x_public_key X K = Ok P /\
    xp_raw P = oid ++ v1 ++ v2 /\ mt_from_public_bytes X (xp_raw P) = Ok P.
Proof.
  intros X x oid idx ss sp v1 v2 rest V H1 HN H2 H3 H4 H5 H6 HL HS.
  exists {| xk_set := x; xk_raw := xmss_secret x oid idx ss sp v1 v2 rest; xk_pub := None; xk_used := [] |}.
  exists {| xp_set := x; xp_raw := oid ++ v1 ++ v2 |}.
  assert (HPL : length (oid ++ v1 ++ v2) = xl_pub X x) by (rewrite HS; unfold part in *; rewrite !app_length; lia).
  split; [|split; [|split; [reflexivity|]]].
  - unfold mt_from_private_bytes. replace (firstn 4 (xmss_secret x oid idx ss sp v1 v2 rest)) with oid by (symmetry; apply firstn_app_exact; exact H1).
    rewrite (proj2 (mt_lookup _ _) (conj (proj1 V) HN)). cbn [of_opt bind]. rewrite (proj2 (mt_details_exact x (proj1 V)) V). cbn [guard bind].
    unfold x_private. rewrite HL, Nat.eqb_refl. reflexivity.
  - unfold x_public_key. cbn [xk_pub xk_set xk_raw]. rewrite (mt_pk x oid idx ss sp v1 v2 rest V H1 H2 H3 H4 H5 H6). cbn [bind].
    assert (D : (xs_d x =? 0) = false).
    { apply Z.eqb_neq. destruct V as [[M _] _]. intros E. simpl in M. intuition congruence. }
    rewrite D. unfold mt_public. rewrite HPL, Nat.eqb_refl. reflexivity.
  - apply mt_public_exact. cbn [xp_set xp_raw]. split; [exact V|]. rewrite (firstn_app_exact _ oid _ _ H1). split; [exact HN|].
    assert (0 <= xs_bits x / 8) by (destruct V as [_ [[E|E] _]]; rewrite E; vm_compute; discriminate).
    split; [rewrite HPL, HS; pose proof (out_len_Z x); lia|]. split; [exact HPL | reflexivity].
Qed.

(** ** Keys in certificate templates *)
Lemma template_xmss : forall ps oid x a e, validate_template_key ps oid (PXmss x) a e = Ok tt <->
  ps = false /\ oid = true /\ xs_hash x <> ShakeP /\ (xs_bits x = 192 \/ xs_bits x = 256).
Proof.
  intros ps oid x a e. unfold validate_template_key. destruct ps; cbn [negb guard bind]; [split; [discriminate | intros [H _]; discriminate]|].
  destruct oid; cbn [guard bind]; [|split; [discriminate | intros [_ [H _]]; discriminate]].
  unfold nist_approved. destruct (xs_hash x); cbn [andb].
  - destruct (xs_bits x =? 256) eqn:E1; cbn [orb guard].
    + apply Z.eqb_eq in E1. split; [intros _; repeat split; auto; discriminate | reflexivity].
    + apply Z.eqb_neq in E1. destruct (xs_bits x =? 192) eqn:E2; cbn [guard].
      * apply Z.eqb_eq in E2. split; [intros _; repeat split; auto; discriminate | reflexivity].
      * apply Z.eqb_neq in E2. split; [discriminate | tauto].
  - cbn [guard]. split; [discriminate | intros [_ [_ [H _]]]; congruence].
  - destruct (xs_bits x =? 256) eqn:E1; cbn [orb guard].
    + apply Z.eqb_eq in E1. split; [intros _; repeat split; auto; discriminate | reflexivity].
    + apply Z.eqb_neq in E1. destruct (xs_bits x =? 192) eqn:E2; cbn [guard].
      * apply Z.eqb_eq in E2. split; [intros _; repeat split; auto; discriminate | reflexivity].
      * apply Z.eqb_neq in E2. split; [discriminate | tauto].
Qed.
Lemma template_hss : forall L raw K ps oid a e, hss_from_public_bytes L raw = Ok K ->
  (validate_template_key ps oid (PHss K) a e = Ok tt <-> ps = false /\ oid = true /\ 1 <= hp_levels K <= 8).
Proof.
  intros L raw K ps oid a e H. unfold validate_template_key. destruct ps; cbn [negb guard bind]; [split; [discriminate | intros [X _]; discriminate]|].
  destruct oid; cbn [guard bind]; [|split; [discriminate | intros [_ [X _]]; discriminate]].
  pose proof (key_levels L raw K (a || e) H) as E. destruct (validate_hss_key K (a || e)) as [[]|ex].
  - split; [intros _; repeat split; auto; apply E; reflexivity | reflexivity].
  - split; [destruct ex; discriminate|]. intros [_ [_ X]]. apply E in X. discriminate.
Qed.
Lemma template_error : forall L raw K ps oid a e ex,
  (hss_from_public_bytes L raw = Ok K -> validate_template_key ps oid (PHss K) a e = Err ex -> ex = EBadCertTemplate).
Proof.
  intros L raw K ps oid a e ex H E. unfold validate_template_key in E. destruct ps; cbn [negb guard bind] in E; [congruence|].
  destruct oid; cbn [guard bind] in E; [|congruence].
  destruct (validate_hss_key K (a || e)) as [[]|x] eqn:V; [discriminate|].
  assert (x = EInvalidKeyData).
  { unfold validate_hss_key in V. apply public_key_exact in H. destruct H as [s [lv [VS [_ [_ ->]]]]]. unfold get_level_names in V. cbn [hp_lms hp_lmots hp_levels] in V.
    rewrite (lms_by_code s VS), (ots_by_code s VS) in V. cbn [of_opt bind] in V. eapply levels_error; exact V. }
  subst x. congruence.
Qed.

(** ** Names in any case, recorded keys, XMSS^MT indices *)
Lemma names_plain : forallb (fun s => negb (String.eqb (set_name s) "") && negb (String.eqb (set_name s) "hss")) all_sets = true.
Proof. vm_compute. reflexivity. Qed.
Lemma hss_name_any : forall name s, valid_set s -> CompLoadModel.lower name = set_name s -> hss_name name = set_name s.
Proof.
  intros name s V E. pose proof names_plain as T. rewrite forallb_forall in T. apply in_all in V. specialize (T s V).
  apply andb_true_iff in T. destruct T as [T1 T2]. apply negb_true_iff in T1, T2. unfold hss_name. rewrite E, T2.
  destruct (String.eqb_spec name "") as [->|]; [|reflexivity]. change (CompLoadModel.lower "") with ""%string in E. rewrite <- E in T1. discriminate.
Qed.
Lemma public_any_case : forall L name raw s K, valid_set s -> CompLoadModel.lower name = set_name s ->
  (hss_public L name raw = Ok K <-> hss_from_public_bytes L raw = Ok K /\ hp_name K = set_name s).
Proof.
  intros L name raw s K V E. assert (hss_public L name raw = hss_public L (set_name s) raw) as ->.
  { unfold hss_public. rewrite (hss_name_any name s V E), (hss_name_set s V). reflexivity. }
  split.
  - intros H. pose proof H as H0. unfold hss_public in H. rewrite (hss_name_set s V) in H. cbv zeta in H.
    destruct (of_opt (hss_details (set_name s)) EValueError) as [d|]; [|discriminate]. cbn [bind] in H.
    destruct (hl_pub L raw) as [[[lv lms] lmots]|] eqn:Ep; cbn [of_opt bind] in H; [|discriminate].
    destruct (guard _ _) as [[]|]; cbn [bind] in H; [|discriminate].
    destruct (build_hss_name_from_codes lms lmots) as [c|] eqn:Eb; cbn [bind] in H; [|discriminate].
    destruct (String.eqb_spec c (set_name s)) as [->|]; [|discriminate]. cbn [guard bind] in H.
    split; [|injection H as <-; reflexivity]. unfold hss_from_public_bytes. rewrite Ep. cbn [of_opt bind]. rewrite Eb. cbn [bind]. exact H0.
  - intros [H Hn]. unfold hss_from_public_bytes in H. destruct (hl_pub L raw) as [[[lv lms] lmots]|] eqn:Ep; cbn [of_opt bind] in H; [|discriminate].
    destruct (build_hss_name_from_codes lms lmots) as [c|] eqn:Eb; cbn [bind] in H; [|discriminate].
    apply build_name in Eb. destruct Eb as [t [Vt [-> [-> ->]]]]. assert (hp_name K = set_name t) as Ht; [|congruence].
    unfold hss_public in H. rewrite (hss_name_set t Vt) in H. cbv zeta in H.
    destruct (of_opt (hss_details (set_name t)) EValueError) as [d|]; [|discriminate]. cbn [bind] in H. rewrite Ep in H. cbn [of_opt bind] in H.
    destruct (guard _ _) as [[]|]; cbn [bind] in H; [|discriminate].
    destruct (build_hss_name_from_codes _ _) as [c|]; cbn [bind] in H; [|discriminate].
    destruct (guard _ _) as [[]|]; cbn [bind] in H; [|discriminate]. injection H as <-. reflexivity.
Qed.
Lemma used_default : forall used b, pick_used (used ++ [b])%list None = Ok b /\ pick_used [] None = Err EIndexError.
Proof.
  intros used b. split; [|reflexivity]. unfold pick_used, py_index. cbn [bind]. change (-1 <? 0) with true. cbv iota zeta.
  rewrite app_length, Nat2Z.inj_add. change (Z.of_nat (length [b])) with 1.
  replace (Z.of_nat (length used) + 1 + -1) with (Z.of_nat (length used)) by lia.
  replace (-1 + (Z.of_nat (length used) + 1)) with (Z.of_nat (length used)) by lia.
  replace ((0 <=? Z.of_nat (length used)) && (Z.of_nat (length used) <? Z.of_nat (length used) + 1)) with true
    by (symmetry; apply andb_true_iff; split; [apply Z.leb_le|apply Z.ltb_lt]; lia).
  rewrite Nat2Z.id, nth_error_app2, Nat.sub_diag by lia. reflexivity.
Qed.
Lemma mt_index : forall x i rest, 0 <= i < 256 ^ Z.of_nat (ceil8 (xs_h x)) -> (4 <= ceil8 (xs_h x) + length rest)%nat ->
  mt_leaf_index x (be (ceil8 (xs_h x)) i ++ rest) = Ok i.
Proof.
  intros x i rest Hi Hl. unfold mt_leaf_index.
  assert (length (be (ceil8 (xs_h x)) i) = ceil8 (xs_h x)) as Hb by apply be_len.
  rewrite app_length, Hb. replace (ceil8 (xs_h x) + length rest <? 4)%nat with false by (symmetry; apply Nat.ltb_ge; lia). cbn [negb guard bind].
  rewrite (firstn_app_exact Z _ rest (ceil8 (xs_h x)) Hb). f_equal. apply from_be_be. exact Hi.
Qed.
