(** XMSS and FORS trees. *)
From Verif Require Import SlhSpec LatFacts SlhDigits SlhWots.
From Coq Require Import Lia.
Local Open Scope Z_scope.

Lemma skipn_plus {A} x y (l : list A) : skipn x (skipn y l) = skipn (y + x) l.
Proof. revert l. induction y as [|y IH]; intro l; [reflexivity|]. destruct l; [rewrite !skipn_nil; reflexivity|]. apply IH. Qed.

Lemma sib_lxor x : 0 <= x -> Z.lxor x 1 = sib x.
Proof. intro H. destruct x as [|q|q]; [reflexivity|destruct q; reflexivity|lia]. Qed.

Lemma sib_range x e : (1 <= e)%nat -> 0 <= x < 2 ^ Z.of_nat e -> 0 <= sib x < 2 ^ Z.of_nat e.
Proof.
  intros He H. replace (Z.of_nat e) with (1 + Z.of_nat (e - 1)) in * by lia. rewrite Z.pow_add_r in * by lia.
  change (2 ^ 1) with 2 in *. set (P := 2 ^ Z.of_nat (e - 1)) in *. unfold sib. rewrite Zeven_mod.
  pose proof (Z.div_mod x 2 ltac:(lia)). pose proof (Z.mod_pos_bound x 2 ltac:(lia)).
  destruct (Zeq_bool (x mod 2) 0) eqn:E; [apply Zeq_bool_eq in E|apply Zeq_bool_neq in E]; lia.
Qed.

Lemma div_pow_S C j : 0 <= C -> C / 2 ^ Z.of_nat (S j) = (C / 2 ^ Z.of_nat j) / 2.
Proof.
  intro H. replace (Z.of_nat (S j)) with (Z.of_nat j + 1) by lia. rewrite Z.pow_add_r by lia. change (2 ^ 1) with 2.
  rewrite Z.div_div by (try apply Z.pow_nonzero; lia). reflexivity.
Qed.

Lemma div_pow_range C j e : 0 <= C < 2 ^ Z.of_nat e -> (j <= e)%nat -> 0 <= C / 2 ^ Z.of_nat j < 2 ^ Z.of_nat (e - j).
Proof.
  intros H Hj. pose proof (Z.pow_pos_nonneg 2 (Z.of_nat j) ltac:(lia) ltac:(lia)).
  split; [apply Z.div_pos; lia|]. apply Z.div_lt_upper_bound; [lia|]. rewrite <- Z.pow_add_r by lia.
  replace (Z.of_nat j + Z.of_nat (e - j)) with (Z.of_nat e) by lia. lia.
Qed.

Section S.
Variable hs : raw.
Variable p : params.
Hypothesis Hraw : raw_ok hs.
Hypothesis Hwf : wfb p = true.
Variables sk pk : bytes.

Notation xnode := (xnode hs p sk pk).
Notation fnode := (fnode hs p sk pk).

Lemma xnode_length l t z i : length (xnode l t z i) = n p.
Proof. destruct z; [apply wots_pkS_length|apply h_h_length]; assumption. Qed.
Lemma fnode_length t kp z i : length (fnode t kp z i) = n p.
Proof. destruct z; [apply h_f_length|apply h_h_length]; assumption. Qed.

Lemma pow_le_32 e : (e <= 31)%nat -> 2 ^ Z.of_nat e <= 2 ^ 31.
Proof. intro H. apply Z.pow_le_mono_r; lia. Qed.

Lemma xmss_node_ok l t : forall z i y kp b c, (z <= hp p)%nat -> 0 <= i < 2 ^ Z.of_nat (hp p - z) ->
  exists y' kp' b' c', xmss_node hs p sk i z pk (adr l t y kp b c) = Ok (xnode l t z i, adr l t y' kp' b' c').
Proof.
  pose proof (wf_facts p Hwf) as (_ & _ & _ & _ & _ & Hhp & _).
  induction z as [|z IH]; intros i y kp b c Hz Hi.
  - cbn [xmss_node]. replace (hp p <? 0)%nat with false by reflexivity. cbn [orb].
    replace (i >=? 2 ^ Z.of_nat (hp p - 0)) with false by (symmetry; rewrite Z.geb_leb; apply Z.leb_gt; lia).
    rewrite set_type, set_kp. pose proof (pow_le_32 (hp p - 0) ltac:(lia)).
    destruct (wots_pkgen_ok hs p Hwf sk pk l t i 0 0) as (b2 & c2 & ->); [lia|].
    exists WOTS_HASH, i, b2, c2. reflexivity.
  - cbn [xmss_node]. replace (hp p <? S z)%nat with false by (symmetry; apply Nat.ltb_ge; lia). cbn [orb].
    replace (i >=? 2 ^ Z.of_nat (hp p - S z)) with false by (symmetry; rewrite Z.geb_leb; apply Z.leb_gt; lia).
    assert (E : 2 ^ Z.of_nat (hp p - z) = 2 * 2 ^ Z.of_nat (hp p - S z)).
    { replace (Z.of_nat (hp p - z)) with (1 + Z.of_nat (hp p - S z)) by lia. rewrite Z.pow_add_r by lia. reflexivity. }
    destruct (IH (2 * i) y kp b c ltac:(lia) ltac:(lia)) as (y1 & kp1 & b1 & c1 & ->). cbn [bind].
    destruct (IH (2 * i + 1) y1 kp1 b1 c1 ltac:(lia) ltac:(lia)) as (y2 & kp2 & b2 & c2 & ->). cbn [bind].
    rewrite set_type, set_height, set_index. eexists _, _, _, _. reflexivity.
Qed.

Lemma auth_loop_ok l t idx : 0 <= idx < 2 ^ Z.of_nat (hp p) -> forall r j auth y kp b c, (j + r <= hp p)%nat ->
  exists y' kp' b' c', auth_loop hs p (seq j r) sk idx pk auth (adr l t y kp b c) =
    Ok (auth ++ flat_map (fun j => xnode l t j (sib (idx / 2 ^ Z.of_nat j))) (seq j r), adr l t y' kp' b' c').
Proof.
  intro Hi. induction r as [|r IH]; intros j auth y kp b c Hj.
  - exists y, kp, b, c. cbn [seq auth_loop flat_map]. rewrite app_nil_r. reflexivity.
  - cbn [seq auth_loop]. rewrite Z.shiftr_div_pow2 by lia.
    pose proof (div_pow_range idx j (hp p) Hi ltac:(lia)) as R. rewrite sib_lxor by lia.
    destruct (xmss_node_ok l t j (sib (idx / 2 ^ Z.of_nat j)) y kp b c) as (y1 & kp1 & b1 & c1 & ->); [lia|apply sib_range; lia|].
    cbn [bind]. destruct (IH (S j) (auth ++ xnode l t j (sib (idx / 2 ^ Z.of_nat j))) y1 kp1 b1 c1 ltac:(lia)) as (y2 & kp2 & b2 & c2 & ->).
    exists y2, kp2, b2, c2. cbn [flat_map]. rewrite app_assoc. reflexivity.
Qed.

Lemma xmss_sign_ok l t idx msg v y kp b c : 0 <= idx < 2 ^ Z.of_nat (hp p) -> length msg = n p -> wots_digits p msg = Ok v ->
  exists y' kp' b' c', xmss_sign hs p msg sk idx pk (adr l t y kp b c) = Ok (xmss_sigS hs p sk pk l t idx v, adr l t y' kp' b' c').
Proof.
  pose proof (wf_facts p Hwf) as (_ & _ & _ & _ & _ & Hhp & _).
  intros Hi Lm Ev. unfold xmss_sign.
  destruct (auth_loop_ok l t idx Hi (hp p) 0 [] y kp b c ltac:(lia)) as (y1 & kp1 & b1 & c1 & ->). cbn [bind app].
  rewrite set_type, set_kp. pose proof (pow_le_32 (hp p) ltac:(lia)).
  destruct (wots_sign_ok hs p Hwf sk pk l t idx msg v 0 0) as (b2 & c2 & ->); [lia|exact Lm|exact Ev|]. cbn [bind].
  eexists _, _, _, _. reflexivity.
Qed.

Lemma xmss_sigS_length l t idx v : length (xmss_sigS hs p sk pk l t idx v) = ((hp p + len p) * n p)%nat.
Proof.
  unfold xmss_sigS, auth_path. rewrite app_length, wots_sigS_length by assumption. rewrite (flat_map_length_const _ (n p)).
  - rewrite seq_length. lia.
  - intros. apply xnode_length.
Qed.

(** The climb with explicit addresses: leaf number [C] counted across the forest. *)
Fixpoint climbS (l t y kp C : Z) (auth : bytes) (js : list nat) (node : bytes) : bytes :=
  match js with
  | [] => node
  | j :: r =>
      let aj := slice (j * n p) ((j + 1) * n p) auth in
      let A := adr l t y kp (Z.of_nat (S j)) (C / 2 ^ Z.of_nat (S j)) in
      climbS l t y kp C auth r
        (if Z.even (C / 2 ^ Z.of_nat j) then h_h hs p pk A (node ++ aj) else h_h hs p pk A (aj ++ node))
  end.

Lemma climb_pure l t y kp idx C auth H : 0 <= C < 2 ^ 32 ->
  (forall j, (j < H)%nat -> Z.even (Z.shiftr idx (Z.of_nat j)) = Z.even (C / 2 ^ Z.of_nat j)) ->
  forall r j node b, (j + r <= H)%nat ->
  exists b', climb hs p (seq j r) idx auth pk node (adr l t y kp b (C / 2 ^ Z.of_nat j)) =
    (climbS l t y kp C auth (seq j r) node, adr l t y kp b' (C / 2 ^ Z.of_nat (j + r))).
Proof.
  intros HC Hev. induction r as [|r IH]; intros j node b Hj.
  - exists b. cbn [seq climb climbS]. rewrite Nat.add_0_r. reflexivity.
  - cbn [seq climb climbS].
    assert (RC : 0 <= C / 2 ^ Z.of_nat j < 2 ^ 32).
    { pose proof (Z.pow_pos_nonneg 2 (Z.of_nat j) ltac:(lia) ltac:(lia)). split; [apply Z.div_pos; lia|].
      apply Z.div_lt_upper_bound; nia. }
    assert (P : (Z.land (Z.shiftr idx (Z.of_nat j)) 1 =? 0) = Z.even (C / 2 ^ Z.of_nat j)).
    { rewrite <- Hev by lia. change 1 with (Z.ones 1). rewrite Z.land_ones by lia. change (2 ^ 1) with 2.
      rewrite Zeven_mod. unfold Zeq_bool. rewrite Z.eqb_compare. destruct (Z.shiftr idx (Z.of_nat j) mod 2 ?= 0); reflexivity. }
    rewrite P. rewrite set_height, get_index by exact RC. rewrite !set_index.
    replace (Z.of_nat j + 1) with (Z.of_nat (S j)) by lia.
    pose proof (div_pow_S C j ltac:(lia)) as D.
    replace (j + S r)%nat with (S j + r)%nat by lia.
    destruct (Z.even (C / 2 ^ Z.of_nat j)) eqn:E.
    + rewrite <- D. apply IH. lia.
    + replace ((C / 2 ^ Z.of_nat j - 1) / 2) with (C / 2 ^ Z.of_nat (S j)); [apply IH; lia|].
      rewrite D. rewrite Zeven_mod in E. pose proof (Z.mod_pos_bound (C / 2 ^ Z.of_nat j) 2 ltac:(lia)).
      assert (M : (C / 2 ^ Z.of_nat j) mod 2 = 1).
      { destruct (Z.eq_dec ((C / 2 ^ Z.of_nat j) mod 2) 0) as [Q|Q]; [rewrite Q in E; discriminate|lia]. }
      set (x := C / 2 ^ Z.of_nat j) in *. pose proof (Z.div_mod x 2 ltac:(lia)).
      replace (x - 1) with ((x / 2) * 2) by lia. rewrite Z.div_mul by lia. reflexivity.
Qed.

Lemma climbS_correct (N : nat -> Z -> bytes) l t y kp C auth H : 0 <= C ->
  (forall j x, (j < H)%nat -> N (S j) x = h_h hs p pk (adr l t y kp (Z.of_nat (S j)) x) (N j (2 * x) ++ N j (2 * x + 1))) ->
  (forall j, (j < H)%nat -> slice (j * n p) ((j + 1) * n p) auth = N j (sib (C / 2 ^ Z.of_nat j))) ->
  forall r j, (j + r <= H)%nat ->
  climbS l t y kp C auth (seq j r) (N j (C / 2 ^ Z.of_nat j)) = N (j + r)%nat (C / 2 ^ Z.of_nat (j + r)).
Proof.
  intros HC HN HA. induction r as [|r IH]; intros j Hj; [rewrite Nat.add_0_r; reflexivity|].
  cbn [seq climbS]. rewrite HA by lia.
  replace (j + S r)%nat with (S j + r)%nat by lia. rewrite <- IH by lia. f_equal.
  rewrite HN by lia. rewrite div_pow_S by lia.
  set (x := C / 2 ^ Z.of_nat j). unfold sib. rewrite !Zeven_mod.
  pose proof (Z.div_mod x 2 ltac:(lia)). pose proof (Z.mod_pos_bound x 2 ltac:(lia)).
  destruct (Zeq_bool (x mod 2) 0) eqn:E; [apply Zeq_bool_eq in E|apply Zeq_bool_neq in E].
  - replace (2 * (x / 2)) with x by lia. reflexivity.
  - replace (2 * (x / 2)) with (x - 1) by lia. replace (x - 1 + 1) with x by lia. reflexivity.
Qed.

Lemma auth_slice (N : nat -> Z -> bytes) C H tl : (forall j x, length (N j x) = n p) -> forall j, (j < H)%nat ->
  slice (j * n p) ((j + 1) * n p) (auth_path N C H ++ tl) = N j (sib (C / 2 ^ Z.of_nat j)).
Proof.
  intros HN j Hj. unfold auth_path.
  rewrite (slice_flat_map (fun j => N j (sib (C / 2 ^ Z.of_nat j))) (n p)); [reflexivity|intro; apply HN|exact Hj].
Qed.

(** What xmss_pk_from_sig computes from any signature. *)
Definition xmss_from (l t idx : Z) (sg : bytes) (v : list Z) : bytes :=
  climbS l t TREE 0 idx (skipn (len p * n p) sg) (seq 0 (hp p)) (wots_from hs p pk l t idx (firstn (len p * n p) sg) v).

Lemma xmss_pk_from_sig_ok l t idx sg msg v y kp b c : 0 <= idx < 2 ^ Z.of_nat (hp p) -> length msg = n p -> wots_digits p msg = Ok v ->
  exists y' kp' b' c', xmss_pk_from_sig hs p idx sg msg pk (adr l t y kp b c) = Ok (xmss_from l t idx sg v, adr l t y' kp' b' c').
Proof.
  pose proof (wf_facts p Hwf) as (_ & _ & _ & _ & _ & Hhp & _).
  intros Hi Lm Ev. pose proof (pow_le_32 (hp p) ltac:(lia)). unfold xmss_pk_from_sig. rewrite set_type, set_kp.
  unfold slice. rewrite Nat.sub_0_r. cbn [skipn].
  destruct (wots_pk_from_sig_ok hs p Hwf pk l t idx (firstn (len p * n p) sg) msg v 0 0) as (b1 & c1 & ->); [lia|exact Lm|exact Ev|].
  cbn [bind]. rewrite set_type, set_index.
  destruct (climb_pure l t TREE 0 idx idx (skipn (len p * n p) sg) (hp p) ltac:(lia)
     ltac:(intros; rewrite Z.shiftr_div_pow2 by lia; reflexivity) (hp p) 0 (wots_from hs p pk l t idx (firstn (len p * n p) sg) v) 0 ltac:(lia)) as (b2 & E).
  change (2 ^ Z.of_nat 0) with 1 in E. rewrite Z.div_1_r in E. rewrite E.
  eexists _, _, _, _. reflexivity.
Qed.

Lemma xmss_from_sig l t idx v tl : 0 <= idx < 2 ^ Z.of_nat (hp p) -> length v = len p -> Forall (fun x => 0 <= x < w p) v ->
  xmss_from l t idx (xmss_sigS hs p sk pk l t idx v ++ tl) v = xnode l t (hp p) 0.
Proof.
  intros Hi Lv Rv. unfold xmss_from, xmss_sigS. rewrite <- app_assoc.
  rewrite firstn_app_exact, skipn_app_exact by (apply wots_sigS_length; assumption).
  rewrite <- (app_nil_r (wots_sigS _ _ _ _ _ _ _ _)). rewrite wots_from_sig by assumption.
  pose proof (climbS_correct (xnode l t) l t TREE 0 idx (auth_path (xnode l t) idx (hp p) ++ tl) (hp p) ltac:(lia)
     ltac:(intros; reflexivity) ltac:(intros; apply auth_slice; [intros; apply xnode_length|assumption]) (hp p) 0 ltac:(lia)) as E.
  change (2 ^ Z.of_nat 0) with 1 in E. rewrite Z.div_1_r in E. cbn [Nat.add] in E.
  change (xnode l t 0 idx) with (wots_pkS hs p sk pk l t idx) in E. rewrite E.
  rewrite (Z.div_small idx) by lia. reflexivity.
Qed.

(** FORS. *)
Lemma fors_sk_gen_ok t kp b c i : 0 <= kp < 2 ^ 32 -> fors_sk_gen hs p sk pk (adr 0 t FORS_TREE kp b c) i = fors_skS hs p sk pk t kp i.
Proof. intro H. unfold fors_sk_gen. rewrite get_kp, set_type, set_kp, set_index by exact H. reflexivity. Qed.

Lemma fors_node_ok t kp : 0 <= kp < 2 ^ 32 -> forall z i b c, (z <= a p)%nat -> 0 <= i < Z.of_nat (k p) * 2 ^ Z.of_nat (a p - z) ->
  exists b' c', fors_node hs p sk i z pk (adr 0 t FORS_TREE kp b c) = Ok (fnode t kp z i, adr 0 t FORS_TREE kp b' c').
Proof.
  intro Hkp. induction z as [|z IH]; intros i b c Hz Hi; cbn [fors_node]; rewrite Z.shiftl_mul_pow2 by lia.
  - replace (a p <? 0)%nat with false by reflexivity. cbn [orb].
    replace (i >=? _) with false by (symmetry; rewrite Z.geb_leb; apply Z.leb_gt; lia).
    rewrite fors_sk_gen_ok, set_height, set_index by exact Hkp. eexists _, _. reflexivity.
  - replace (a p <? S z)%nat with false by (symmetry; apply Nat.ltb_ge; lia). cbn [orb].
    replace (i >=? _) with false by (symmetry; rewrite Z.geb_leb; apply Z.leb_gt; lia).
    assert (E : 2 ^ Z.of_nat (a p - z) = 2 * 2 ^ Z.of_nat (a p - S z)).
    { replace (Z.of_nat (a p - z)) with (1 + Z.of_nat (a p - S z)) by lia. rewrite Z.pow_add_r by lia. reflexivity. }
    destruct (IH (2 * i) b c ltac:(lia) ltac:(lia)) as (b1 & c1 & ->). cbn [bind].
    destruct (IH (2 * i + 1) b1 c1 ltac:(lia) ltac:(lia)) as (b2 & c2 & ->). cbn [bind].
    rewrite set_height, set_index. eexists _, _. reflexivity.
Qed.

(** Leaf numbers of tree [i]. *)
Lemma leaf_shift i idx j : 0 <= idx < 2 ^ Z.of_nat (a p) -> (j <= a p)%nat ->
  (Z.of_nat i * 2 ^ Z.of_nat (a p) + idx) / 2 ^ Z.of_nat j = Z.of_nat i * 2 ^ Z.of_nat (a p - j) + idx / 2 ^ Z.of_nat j.
Proof.
  intros Hi Hj. replace (Z.of_nat (a p)) with (Z.of_nat (a p - j) + Z.of_nat j) by lia. rewrite Z.pow_add_r by lia.
  rewrite Z.mul_assoc, Z.div_add_l by (apply Z.pow_nonzero; lia). reflexivity.
Qed.

Lemma even_add_pow i e x : (1 <= e)%nat -> Z.even (Z.of_nat i * 2 ^ Z.of_nat e + x) = Z.even x.
Proof.
  intro H. rewrite Z.even_add, Z.even_mul, (Z.even_pow 2 (Z.of_nat e)) by lia. rewrite orb_true_r.
  destruct (Z.even x); reflexivity.
Qed.

Lemma sib_leaf i idx j : 0 <= idx < 2 ^ Z.of_nat (a p) -> (j < a p)%nat ->
  sib ((Z.of_nat i * 2 ^ Z.of_nat (a p) + idx) / 2 ^ Z.of_nat j) = Z.of_nat i * 2 ^ Z.of_nat (a p - j) + sib (idx / 2 ^ Z.of_nat j).
Proof.
  intros Hi Hj. rewrite leaf_shift by lia. unfold sib. rewrite even_add_pow by lia.
  destruct (Z.even (idx / 2 ^ Z.of_nat j)); lia.
Qed.

Lemma node_in_range i s j : (i < k p)%nat -> 0 <= s < 2 ^ Z.of_nat (a p - j) -> 0 <= Z.of_nat i * 2 ^ Z.of_nat (a p - j) + s < Z.of_nat (k p) * 2 ^ Z.of_nat (a p - j).
Proof. intros Hi Hs. nia. Qed.

Lemma fors_auth_loop_ok t kp i idx : 0 <= kp < 2 ^ 32 -> (i < k p)%nat -> 0 <= idx < 2 ^ Z.of_nat (a p) ->
  forall r j sg b c, (j + r <= a p)%nat ->
  exists b' c', fors_auth_loop hs p (seq j r) sk i idx pk sg (adr 0 t FORS_TREE kp b c) =
    Ok (sg ++ flat_map (fun j => fnode t kp j (sib ((Z.of_nat i * 2 ^ Z.of_nat (a p) + idx) / 2 ^ Z.of_nat j))) (seq j r),
        adr 0 t FORS_TREE kp b' c').
Proof.
  intros Hkp Hi Hx. induction r as [|r IH]; intros j sg b c Hj.
  - exists b, c. cbn [seq fors_auth_loop flat_map]. rewrite app_nil_r. reflexivity.
  - cbn [seq fors_auth_loop]. rewrite Z.shiftr_div_pow2, Z.shiftl_mul_pow2 by lia.
    pose proof (div_pow_range idx j (a p) Hx ltac:(lia)) as R. rewrite sib_lxor by lia.
    rewrite <- sib_leaf by lia.
    destruct (fors_node_ok t kp Hkp j (sib ((Z.of_nat i * 2 ^ Z.of_nat (a p) + idx) / 2 ^ Z.of_nat j)) b c) as (b1 & c1 & ->); [lia| |].
    { rewrite sib_leaf by lia. apply node_in_range; [exact Hi|]. apply sib_range; [lia|exact R]. }
    cbn [bind]. match goal with |- context [fors_auth_loop _ _ _ _ _ _ _ ?s _] => destruct (IH (S j) s b1 c1 ltac:(lia)) as (b2 & c2 & ->) end.
    exists b2, c2. cbn [flat_map]. rewrite app_assoc. reflexivity.
Qed.

Definition idxs_ok (v : list Z) : Prop := length v = k p /\ Forall (fun x => 0 <= x < 2 ^ Z.of_nat (a p)) v.

Lemma idx_range v i : idxs_ok v -> (i < k p)%nat -> 0 <= nthz i v < 2 ^ Z.of_nat (a p).
Proof. intros [L F] H. rewrite Forall_forall in F. apply F. unfold nthz. apply nth_In. lia. Qed.

Lemma fors_sign_loop_ok t kp v : 0 <= kp < 2 ^ 32 -> idxs_ok v -> forall r i sg b c, (i + r <= k p)%nat ->
  exists b' c', fors_sign_loop hs p (seq i r) v sk pk sg (adr 0 t FORS_TREE kp b c) =
    Ok (sg ++ flat_map (fun i => fors_skS hs p sk pk t kp (fors_leaf p v i) ++ auth_path (fnode t kp) (fors_leaf p v i) (a p)) (seq i r),
        adr 0 t FORS_TREE kp b' c').
Proof.
  intros Hkp Hv. induction r as [|r IH]; intros i sg b c Hi.
  - exists b, c. cbn [seq fors_sign_loop flat_map]. rewrite app_nil_r. reflexivity.
  - cbn [seq fors_sign_loop]. rewrite fors_sk_gen_ok by exact Hkp. rewrite Z.shiftl_mul_pow2 by lia.
    fold (fors_leaf p v i).
    destruct (fors_auth_loop_ok t kp i (nthz i v) Hkp ltac:(lia) (idx_range v i Hv ltac:(lia)) (a p) 0
      (sg ++ fors_skS hs p sk pk t kp (fors_leaf p v i)) b c ltac:(lia)) as (b1 & c1 & ->).
    cbn [bind]. fold (fors_leaf p v i). fold (auth_path (fnode t kp) (fors_leaf p v i) (a p)).
    match goal with |- context [fors_sign_loop _ _ _ _ _ _ ?s _] => destruct (IH (S i) s b1 c1 ltac:(lia)) as (b2 & c2 & ->) end.
    exists b2, c2. cbn [flat_map]. rewrite !app_assoc. reflexivity.
Qed.

Lemma fors_sign_ok t kp md v b c : 0 <= kp < 2 ^ 32 -> base_2b md (a p) (k p) = Ok v -> idxs_ok v ->
  exists b' c', fors_sign hs p md sk pk (adr 0 t FORS_TREE kp b c) = Ok (fors_sigS hs p sk pk t kp v, adr 0 t FORS_TREE kp b' c').
Proof.
  intros Hkp Ev Hv. unfold fors_sign. rewrite Ev. cbn [bind].
  destruct (fors_sign_loop_ok t kp v Hkp Hv (k p) 0 [] b c ltac:(lia)) as (b1 & c1 & ->). exists b1, c1. reflexivity.
Qed.

(** What fors_pk_from_sig computes from any signature. *)
Definition fors_root_from (t kp : Z) (v : list Z) (sg : bytes) (i : nat) : bytes :=
  climbS 0 t FORS_TREE kp (fors_leaf p v i) (slice ((i * (a p + 1) + 1) * n p) ((i + 1) * (a p + 1) * n p) sg) (seq 0 (a p))
    (h_f hs p pk (adr 0 t FORS_TREE kp 0 (fors_leaf p v i)) (slice (i * (a p + 1) * n p) ((i * (a p + 1) + 1) * n p) sg)).
Definition fors_from (t kp : Z) (sg : bytes) (v : list Z) : bytes :=
  h_t hs p pk (adr 0 t FORS_ROOTS kp 0 0) (flat_map (fors_root_from t kp v sg) (seq 0 (k p))).

Lemma leaf_range v i : idxs_ok v -> (i < k p)%nat -> 0 <= fors_leaf p v i < 2 ^ 32.
Proof.
  intros Hv Hi. pose proof (wf_facts p Hwf) as (_ & _ & _ & _ & _ & _ & K & _).
  pose proof (idx_range v i Hv Hi). unfold fors_leaf. nia.
Qed.

Lemma fors_pk_loop_ok t kp v sg : idxs_ok v -> forall r i root b c, (i + r <= k p)%nat ->
  exists b' c', fors_pk_loop hs p (seq i r) v sg pk root (adr 0 t FORS_TREE kp b c) =
    (root ++ flat_map (fors_root_from t kp v sg) (seq i r), adr 0 t FORS_TREE kp b' c').
Proof.
  intros Hv. induction r as [|r IH]; intros i root b c Hi.
  - exists b, c. cbn [seq fors_pk_loop flat_map]. rewrite app_nil_r. reflexivity.
  - cbn [seq fors_pk_loop]. rewrite Z.shiftl_mul_pow2 by lia. fold (fors_leaf p v i). rewrite set_height, set_index.
    match goal with |- context [climb _ _ _ _ ?au _ ?nd _] =>
      destruct (climb_pure 0 t FORS_TREE kp (nthz i v) (fors_leaf p v i) au (a p) (leaf_range v i Hv ltac:(lia)))
        with (r := a p) (j := 0%nat) (node := nd) (b := 0) as (b2 & E) end.
    { intros j Hj. rewrite Z.shiftr_div_pow2 by lia. unfold fors_leaf.
      rewrite leaf_shift; [|apply idx_range; [exact Hv|lia]|lia]. rewrite even_add_pow by lia. reflexivity. }
    { lia. }
    change (2 ^ Z.of_nat 0) with 1 in E. rewrite Z.div_1_r in E. rewrite E.
    match goal with |- context [fors_pk_loop _ _ _ _ _ _ ?s (adr _ _ _ _ ?b ?c)] => destruct (IH (S i) s b c ltac:(lia)) as (b3 & c3 & ->) end.
    exists b3, c3. cbn [flat_map]. rewrite app_assoc. reflexivity.
Qed.

Lemma fors_pk_from_sig_ok t kp sg md v b c : 0 <= kp < 2 ^ 32 -> base_2b md (a p) (k p) = Ok v -> idxs_ok v ->
  exists b' c', fors_pk_from_sig hs p sg md pk (adr 0 t FORS_TREE kp b c) = Ok (fors_from t kp sg v, adr 0 t FORS_TREE kp b' c').
Proof.
  intros Hkp Ev Hv. unfold fors_pk_from_sig. rewrite Ev. cbn [bind].
  destruct (fors_pk_loop_ok t kp v sg Hv (k p) 0 [] b c ltac:(lia)) as (b1 & c1 & ->).
  rewrite get_kp, set_type, set_kp by exact Hkp. exists b1, c1. reflexivity.
Qed.

Lemma auth_path_length N C H : (forall j x, length (N j x) = n p) -> length (auth_path N C H) = (H * n p)%nat.
Proof. intro HN. unfold auth_path. rewrite (flat_map_length_const _ (n p)) by (intros; apply HN). rewrite seq_length. lia. Qed.

Lemma fors_from_sig t kp v tl : idxs_ok v -> fors_from t kp (fors_sigS hs p sk pk t kp v ++ tl) v = fors_pkS hs p sk pk t kp.
Proof.
  intro Hv. unfold fors_from, fors_pkS. f_equal. apply flat_map_ext_in'. intros i Hi. apply in_seq in Hi.
  set (B := fun i => fors_skS hs p sk pk t kp (fors_leaf p v i) ++ auth_path (fnode t kp) (fors_leaf p v i) (a p)).
  assert (LB : forall i, length (B i) = ((a p + 1) * n p)%nat).
  { intro j. unfold B. rewrite app_length, auth_path_length by (intros; apply fnode_length). unfold fors_skS. rewrite prf_length by assumption. lia. }
  assert (SB : slice (i * ((a p + 1) * n p)) ((i + 1) * ((a p + 1) * n p)) (fors_sigS hs p sk pk t kp v ++ tl) = B i).
  { unfold fors_sigS. fold B. rewrite (slice_flat_map B _ LB) by lia. reflexivity. }
  assert (SK : slice (i * (a p + 1) * n p) ((i * (a p + 1) + 1) * n p) (fors_sigS hs p sk pk t kp v ++ tl) = fors_skS hs p sk pk t kp (fors_leaf p v i)).
  { apply (f_equal (firstn (n p))) in SB. unfold slice in SB |- *. rewrite firstn_firstn in SB.
    replace (Nat.min (n p) ((i + 1) * ((a p + 1) * n p) - i * ((a p + 1) * n p))) with (n p) in SB by nia.
    replace ((i * (a p + 1) + 1) * n p - i * (a p + 1) * n p)%nat with (n p) by lia.
    replace (i * (a p + 1) * n p)%nat with (i * ((a p + 1) * n p))%nat by lia. rewrite SB.
    apply firstn_app_exact. apply prf_length; assumption. }
  assert (SA : slice ((i * (a p + 1) + 1) * n p) ((i + 1) * (a p + 1) * n p) (fors_sigS hs p sk pk t kp v ++ tl) = auth_path (fnode t kp) (fors_leaf p v i) (a p)).
  { apply (f_equal (skipn (n p))) in SB. unfold slice in SB |- *.
    unfold B in SB. rewrite (skipn_app_exact (fors_skS hs p sk pk t kp (fors_leaf p v i))) in SB by (apply prf_length; assumption). rewrite <- SB.
    rewrite skipn_firstn_comm. rewrite skipn_plus. f_equal; [lia|]. f_equal. lia. }
  unfold fors_root_from. rewrite SK, SA.
  pose proof (climbS_correct (fnode t kp) 0 t FORS_TREE kp (fors_leaf p v i) (auth_path (fnode t kp) (fors_leaf p v i) (a p)) (a p)) as E.
  specialize (E ltac:(pose proof (leaf_range v i Hv ltac:(lia)); lia) ltac:(intros; reflexivity)).
  assert (HA : forall j, (j < a p)%nat -> slice (j * n p) ((j + 1) * n p) (auth_path (fnode t kp) (fors_leaf p v i) (a p)) = fnode t kp j (sib (fors_leaf p v i / 2 ^ Z.of_nat j))).
  { intros j Hj. rewrite <- (app_nil_r (auth_path _ _ _)). apply auth_slice; [intros; apply fnode_length|exact Hj]. }
  specialize (E HA (a p) 0%nat ltac:(lia)). change (2 ^ Z.of_nat 0) with 1 in E. rewrite Z.div_1_r in E. cbn [Nat.add] in E.
  change (fnode t kp 0 (fors_leaf p v i)) with (h_f hs p pk (adr 0 t FORS_TREE kp 0 (fors_leaf p v i)) (fors_skS hs p sk pk t kp (fors_leaf p v i))) in E.
  rewrite E. f_equal. unfold fors_leaf. rewrite leaf_shift; [|apply idx_range; [exact Hv|lia]|lia].
  rewrite Nat.sub_diag. change (2 ^ Z.of_nat 0) with 1. rewrite (Z.div_small (nthz i v)) by (apply idx_range; [exact Hv|lia]). lia.
Qed.

Lemma fors_sigS_length t kp v : length (fors_sigS hs p sk pk t kp v) = (k p * (1 + a p) * n p)%nat.
Proof.
  unfold fors_sigS. rewrite (flat_map_length_const _ ((1 + a p) * n p)).
  - rewrite seq_length. lia.
  - intros i _. rewrite app_length, auth_path_length by (intros; apply fnode_length). unfold fors_skS. rewrite prf_length by assumption. lia.
Qed.
End S.
