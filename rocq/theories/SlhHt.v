(** The hypertree, and signing and verification of messages. *)
From Verif Require Import SlhSpec LatFacts SlhDigits SlhWots SlhTree.
From Coq Require Import Lia.
Local Open Scope Z_scope.

Lemma bytes_eqb_refl x : bytes_eqb x x = true.
Proof. induction x as [|a x IH]; [reflexivity|]. cbn [bytes_eqb]. rewrite Z.eqb_refl. exact IH. Qed.

Lemma land_mask x e : Z.land x (Z.shiftl 1 (Z.of_nat e) - 1) = x mod 2 ^ Z.of_nat e.
Proof. apply mask_mod. Qed.

Section S.
Variable hs : raw.
Variable p : params.
Hypothesis Hraw : raw_ok hs.
Hypothesis Hwf : wfb p = true.

(** The digits of an [n]-byte message. *)
Definition dig (msg : bytes) : list Z := match wots_digits p msg with Ok v => v | Err _ => [] end.
Lemma dig_ok msg : length msg = n p -> wots_digits p msg = Ok (dig msg) /\ length (dig msg) = len p /\ Forall (fun x => 0 <= x < w p) (dig msg).
Proof.
  intro H. destruct (wots_digits_range p Hwf msg H) as (v & E & L & R). unfold dig. rewrite E. split; [reflexivity|]. split; assumption.
Qed.

Section Keys.
Variables sk pk : bytes.

Fixpoint ht_tailS (r j : nat) (T : Z) (root : bytes) : bytes :=
  match r with
  | O => []
  | S r' =>
      let t := T / 2 ^ Z.of_nat (hp p) in
      xmss_sigS hs p sk pk (Z.of_nat j) t (T mod 2 ^ Z.of_nat (hp p)) (dig root) ++
      ht_tailS r' (S j) t (xnode hs p sk pk (Z.of_nat j) t (hp p) 0)
  end.
Definition ht_sigS (msg : bytes) (T L : Z) : bytes :=
  xmss_sigS hs p sk pk 0 T L (dig msg) ++ ht_tailS (d p - 1) 1 T (xnode hs p sk pk 0 T (hp p) 0).

(** One layer of recomputation. *)
Definition layer_from (j : nat) (t L : Z) (sig_ht node : bytes) : bytes :=
  xmss_from hs p pk (Z.of_nat j) t L (slice (j * (hp p + len p) * n p) ((j + 1) * (hp p + len p) * n p) sig_ht) (dig node).
Fixpoint ht_tail_from (r j : nat) (T : Z) (sig_ht node : bytes) : bytes :=
  match r with
  | O => node
  | S r' =>
      let t := T / 2 ^ Z.of_nat (hp p) in
      ht_tail_from r' (S j) t sig_ht (layer_from j t (T mod 2 ^ Z.of_nat (hp p)) sig_ht node)
  end.
Definition ht_from (msg sig_ht : bytes) (T L : Z) : bytes :=
  ht_tail_from (d p - 1) 1 T sig_ht (layer_from 0 T L sig_ht msg).

Lemma climbS_length l t y kp C auth js node : length node = n p -> length (climbS hs p pk l t y kp C auth js node) = n p.
Proof.
  revert node. induction js as [|j r IH]; intros node H; [exact H|]. cbn [climbS]. apply IH.
  destruct (Z.even (C / 2 ^ Z.of_nat j)); apply h_h_length; assumption.
Qed.
Lemma xmss_from_length l t idx sg v : length (xmss_from hs p pk l t idx sg v) = n p.
Proof. apply climbS_length. apply h_h_length; assumption. Qed.

Lemma xmss_from_sig0 l t idx v : 0 <= idx < 2 ^ Z.of_nat (hp p) -> length v = len p -> Forall (fun x => 0 <= x < w p) v ->
  xmss_from hs p pk l t idx (xmss_sigS hs p sk pk l t idx v) v = xnode hs p sk pk l t (hp p) 0.
Proof. intros. rewrite <- (app_nil_r (xmss_sigS _ _ _ _ _ _ _ _)). apply xmss_from_sig; assumption. Qed.
Lemma fors_from_sig0 t kp v : idxs_ok p v -> fors_from hs p pk t kp (fors_sigS hs p sk pk t kp v) v = fors_pkS hs p sk pk t kp.
Proof. intros. rewrite <- (app_nil_r (fors_sigS _ _ _ _ _ _ _)). apply fors_from_sig; assumption. Qed.

Lemma ht_sign_loop_ok : forall r j T root sg l t y kp b c, (1 <= j)%nat -> (j + r = d p)%nat -> length root = n p ->
  ht_sign_loop hs p (seq j r) sk pk T root sg (adr l t y kp b c) = Ok (sg ++ ht_tailS r j T root).
Proof.
  induction r as [|r IH]; intros j T root sg l t y kp b c Hj Hr Lr.
  - cbn [seq ht_sign_loop ht_tailS]. rewrite app_nil_r. reflexivity.
  - cbn [seq ht_sign_loop ht_tailS]. rewrite set_layer, set_tree, land_mask, Z.shiftr_div_pow2 by lia.
    destruct (dig_ok root Lr) as (Ed & Ld & Rd).
    pose proof (Z.mod_pos_bound T (2 ^ Z.of_nat (hp p)) ltac:(apply Z.pow_pos_nonneg; lia)) as Hi.
    set (idx := T mod 2 ^ Z.of_nat (hp p)) in *. set (t' := T / 2 ^ Z.of_nat (hp p)).
    destruct (xmss_sign_ok hs p Hwf sk pk (Z.of_nat j) t' idx root (dig root) y kp b c Hi Lr Ed)
      as (y1 & kp1 & b1 & c1 & ->). cbn [bind].
    destruct (j <? d p - 1)%nat eqn:E.
    + destruct (xmss_pk_from_sig_ok hs p Hwf pk (Z.of_nat j) t' idx (xmss_sigS hs p sk pk (Z.of_nat j) t' idx (dig root)) root (dig root) y1 kp1 b1 c1 Hi Lr Ed)
        as (y2 & kp2 & b2 & c2 & ->). cbn [bind].
      rewrite xmss_from_sig0 by assumption.
      rewrite IH; [|lia|lia|apply xnode_length; assumption]. rewrite app_assoc. reflexivity.
    + apply Nat.ltb_ge in E. assert (r = 0%nat) by lia. subst r. cbn [seq ht_sign_loop ht_tailS]. rewrite app_nil_r. reflexivity.
Qed.

Lemma ht_sign_ok msg T L : 0 <= L < 2 ^ Z.of_nat (hp p) -> length msg = n p -> ht_sign hs p msg sk pk T L = Ok (ht_sigS msg T L).
Proof.
  intros HL Lm. unfold ht_sign. rewrite new_adr, set_tree. destruct (dig_ok msg Lm) as (Ed & Ld & Rd).
  pose proof (wf_facts p Hwf) as (_ & _ & _ & D & _).
  destruct (xmss_sign_ok hs p Hwf sk pk 0 T L msg (dig msg) 0 0 0 0 HL Lm Ed) as (y1 & kp1 & b1 & c1 & ->). cbn [bind].
  destruct (xmss_pk_from_sig_ok hs p Hwf pk 0 T L (xmss_sigS hs p sk pk 0 T L (dig msg)) msg (dig msg) y1 kp1 b1 c1 HL Lm Ed)
    as (y2 & kp2 & b2 & c2 & ->). cbn [bind].
  rewrite xmss_from_sig0 by assumption.
  rewrite ht_sign_loop_ok; [reflexivity|lia|lia|apply xnode_length; assumption].
Qed.

Lemma ht_verify_loop_ok sig_ht : forall r j T node l t y kp b c, length node = n p ->
  ht_verify_loop hs p (seq j r) sig_ht pk T node (adr l t y kp b c) = Ok (ht_tail_from r j T sig_ht node).
Proof.
  induction r as [|r IH]; intros j T node l t y kp b c Ln; [reflexivity|].
  cbn [seq ht_verify_loop ht_tail_from]. rewrite set_layer, set_tree, land_mask, Z.shiftr_div_pow2 by lia.
  destruct (dig_ok node Ln) as (Ed & Ld & Rd).
  pose proof (Z.mod_pos_bound T (2 ^ Z.of_nat (hp p)) ltac:(apply Z.pow_pos_nonneg; lia)) as Hi.
  set (idx := T mod 2 ^ Z.of_nat (hp p)) in *. set (t' := T / 2 ^ Z.of_nat (hp p)).
  destruct (xmss_pk_from_sig_ok hs p Hwf pk (Z.of_nat j) t' idx (slice (j * (hp p + len p) * n p) ((j + 1) * (hp p + len p) * n p) sig_ht) node (dig node) y kp b c Hi Ln Ed)
    as (y2 & kp2 & b2 & c2 & ->). cbn [bind]. rewrite IH by (apply xmss_from_length). reflexivity.
Qed.

Lemma ht_verify_ok msg sig_ht T L root : 0 <= L < 2 ^ Z.of_nat (hp p) -> length msg = n p ->
  ht_verify hs p msg sig_ht pk T L root = Ok (bytes_eqb (ht_from msg sig_ht T L) root).
Proof.
  intros HL Lm. unfold ht_verify. rewrite new_adr, set_tree. destruct (dig_ok msg Lm) as (Ed & Ld & Rd).
  destruct (xmss_pk_from_sig_ok hs p Hwf pk 0 T L (slice 0 ((hp p + len p) * n p) sig_ht) msg (dig msg) 0 0 0 0 HL Lm Ed)
    as (y2 & kp2 & b2 & c2 & ->). cbn [bind].
  rewrite ht_verify_loop_ok by (apply xmss_from_length). cbn [bind].
  unfold ht_from, layer_from. rewrite Nat.mul_0_l. cbn [Nat.add Nat.mul]. rewrite Nat.add_0_r. reflexivity.
Qed.

Lemma ht_tail_correct : forall r j T root pre tl sig, (length pre = j * (hp p + len p) * n p)%nat -> length root = n p ->
  sig = pre ++ ht_tailS r j T root ++ tl -> 0 <= T ->
  ht_tail_from r j T sig root = match r with O => root | S r' => xnode hs p sk pk (Z.of_nat (j + r')) (T / 2 ^ Z.of_nat (hp p * r)) (hp p) 0 end.
Proof.
  induction r as [|r IH]; intros j T root pre tl sig Hp Lr Es HT; [reflexivity|].
  cbn [ht_tail_from]. cbn [ht_tailS] in Es.
  destruct (dig_ok root Lr) as (Ed & Ld & Rd).
  pose proof (Z.mod_pos_bound T (2 ^ Z.of_nat (hp p)) ltac:(apply Z.pow_pos_nonneg; lia)) as Hi.
  set (idx := T mod 2 ^ Z.of_nat (hp p)) in *. set (t' := T / 2 ^ Z.of_nat (hp p)) in *.
  set (X := xmss_sigS hs p sk pk (Z.of_nat j) t' idx (dig root)) in *.
  assert (LX : length X = ((hp p + len p) * n p)%nat) by (apply xmss_sigS_length; assumption).
  assert (E : layer_from j t' idx sig root = xnode hs p sk pk (Z.of_nat j) t' (hp p) 0).
  { unfold layer_from. rewrite Es. rewrite <- !app_assoc. rewrite slice_mid; [|exact Hp|rewrite app_length, Hp, LX; lia].
    rewrite <- (app_nil_r X). apply xmss_from_sig; assumption. }
  rewrite E.
  rewrite (IH (S j) t' (xnode hs p sk pk (Z.of_nat j) t' (hp p) 0) (pre ++ X) tl sig).
  - destruct r as [|r].
    + rewrite Nat.add_0_r, Nat.mul_1_r. reflexivity.
    + replace (S j + r)%nat with (j + S r)%nat by lia. f_equal. unfold t'.
      replace (Z.of_nat (hp p * S (S r))) with (Z.of_nat (hp p) + Z.of_nat (hp p * S r)) by lia.
      rewrite Z.pow_add_r by lia. rewrite Z.div_div by (try apply Z.pow_nonzero; try apply Z.pow_pos_nonneg; lia). reflexivity.
  - rewrite app_length, Hp, LX. lia.
  - apply xnode_length; assumption.
  - rewrite Es. rewrite <- !app_assoc. reflexivity.
  - unfold t'. apply Z.div_pos; [lia|apply Z.pow_pos_nonneg; lia].
Qed.

Lemma ht_from_sig msg T L tl : 0 <= L < 2 ^ Z.of_nat (hp p) -> 0 <= T < 2 ^ Z.of_nat (h p - hp p) -> length msg = n p ->
  ht_from msg (ht_sigS msg T L ++ tl) T L = top_root hs p sk pk.
Proof.
  intros HL HT Lm. pose proof (wf_facts p Hwf) as (_ & _ & _ & D & Hh & _). unfold ht_from.
  destruct (dig_ok msg Lm) as (Ed & Ld & Rd).
  assert (E : layer_from 0 T L (ht_sigS msg T L ++ tl) msg = xnode hs p sk pk 0 T (hp p) 0).
  { unfold layer_from, ht_sigS. rewrite <- app_assoc.
    rewrite <- (xmss_from_sig0 0 T L (dig msg) HL Ld Rd). f_equal.
    apply (slice_mid [] (xmss_sigS hs p sk pk 0 T L (dig msg))); [reflexivity|].
    cbn [app]. rewrite xmss_sigS_length by assumption. lia. }
  rewrite E.
  rewrite (ht_tail_correct (d p - 1) 1 T (xnode hs p sk pk 0 T (hp p) 0) (xmss_sigS hs p sk pk 0 T L (dig msg)) tl).
  - unfold top_root. destruct (d p - 1)%nat as [|r] eqn:Er.
    + assert (d p = 1%nat) by lia. rewrite H in *. replace (h p - hp p)%nat with 0%nat in HT by lia.
      change (2 ^ Z.of_nat 0) with 1 in HT. replace T with 0 by lia. reflexivity.
    + f_equal; [lia|]. replace (hp p * S r)%nat with (h p - hp p)%nat by (rewrite Hh, <- Er; nia).
      apply Z.div_small. exact HT.
  - rewrite xmss_sigS_length by assumption. lia.
  - apply xnode_length; assumption.
  - unfold ht_sigS. rewrite <- app_assoc. reflexivity.
  - lia.
Qed.

Lemma ht_tailS_length : forall r j T root, length (ht_tailS r j T root) = (r * ((hp p + len p) * n p))%nat.
Proof.
  induction r as [|r IH]; intros; [reflexivity|]. cbn [ht_tailS]. rewrite app_length, IH, xmss_sigS_length by assumption. lia.
Qed.
Lemma ht_sigS_length msg T L : length (ht_sigS msg T L) = (d p * ((hp p + len p) * n p))%nat.
Proof.
  pose proof (wf_facts p Hwf) as (_ & _ & _ & D & _).
  unfold ht_sigS. rewrite app_length, ht_tailS_length, xmss_sigS_length by assumption. nia.
Qed.
End Keys.

(** The parts of the digest. *)
Lemma split_ok dg : length dg = m p -> exists md t l, split_digest p dg = Ok (md, t, l) /\
  length md = Nat.div (k p * a p + 7) 8 /\ 0 <= t < 2 ^ Z.of_nat (h p - hp p) /\ 0 <= l < 2 ^ Z.of_nat (hp p).
Proof.
  intro Hd. pose proof (wf_facts p Hwf) as (_ & _ & _ & D & Hh & _ & _ & M).
  assert (E : (h p / d p)%nat = hp p) by (rewrite Hh; apply Nat.div_mul; lia).
  unfold split_digest. rewrite E.
  rewrite to_int_ok by (unfold slice; rewrite firstn_length, skipn_length; lia). cbn [bind].
  rewrite to_int_ok by (unfold slice; rewrite firstn_length, skipn_length; lia). cbn [bind].
  eexists _, _, _. split; [reflexivity|]. split; [unfold slice; rewrite firstn_length, skipn_length; lia|].
  split; apply Z.mod_pos_bound; apply Z.pow_pos_nonneg; lia.
Qed.

Lemma idxs_of md : length md = Nat.div (k p * a p + 7) 8 -> exists v, base_2b md (a p) (k p) = Ok v /\ idxs_ok p v.
Proof.
  intro H. destruct (base_2b_range md (a p) (k p)) as (v & E & L & R).
  - rewrite H. pose proof (Nat.mul_succ_div_gt (k p * a p + 7) 8 ltac:(lia)). lia.
  - exists v. split; [exact E|]. split; assumption.
Qed.

Lemma keygen_ok sk_seed sk_prf pk_seed :
  slh_keygen_internal hs p sk_seed sk_prf pk_seed =
  Ok (pk_seed ++ top_root hs p sk_seed pk_seed, sk_seed ++ sk_prf ++ pk_seed ++ top_root hs p sk_seed pk_seed).
Proof.
  unfold slh_keygen_internal. rewrite new_adr, set_layer.
  destruct (xmss_node_ok hs p Hwf sk_seed pk_seed (Z.of_nat (d p) - 1) 0 (hp p) 0 0 0 0 0) as (y & kp & b & c & ->); [lia| |].
  - split; [lia|apply Z.pow_pos_nonneg; lia].
  - reflexivity.
Qed.

(** Everything sign and verify derive from the randomiser and the message. *)
Definition md_of (r pk_seed pk_root msg : bytes) : list Z * Z * Z :=
  match split_digest p (h_msg hs p r pk_seed pk_root msg) with
  | Ok (md, t, l) => match base_2b md (a p) (k p) with Ok v => (v, t, l) | Err _ => ([], 0, 0) end
  | Err _ => ([], 0, 0)
  end.

Lemma top_range l : 0 <= l < 2 ^ Z.of_nat (hp p) -> 0 <= l < 2 ^ 32.
Proof.
  pose proof (wf_facts p Hwf) as (_ & _ & _ & _ & _ & Hhp & _). intro H.
  pose proof (pow_le_32 (hp p) Hhp). lia.
Qed.

Lemma sign_internal_ok msg sk rnd :
  let sk_seed := slice 0 (n p) sk in
  let pk_seed := slice (2 * n p) (3 * n p) sk in
  let r := prf_msg hs p (slice (n p) (2 * n p) sk) (match rnd with None => pk_seed | Some x => x end) msg in
  let '(v, t, l) := md_of r pk_seed (skipn (3 * n p) sk) msg in
  slh_sign_internal hs p msg sk rnd =
    Ok (r ++ fors_sigS hs p sk_seed pk_seed t l v ++ ht_sigS sk_seed pk_seed (fors_pkS hs p sk_seed pk_seed t l) t l).
Proof.
  intros sk_seed pk_seed r. unfold md_of, slh_sign_internal. fold sk_seed pk_seed. fold r.
  destruct (split_ok (h_msg hs p r pk_seed (skipn (3 * n p) sk) msg)) as (md & t & l & -> & Lmd & Ht & Hl); [apply h_msg_length; assumption|].
  destruct (idxs_of md Lmd) as (v & Ev & Hv). rewrite Ev. cbn [bind].
  rewrite new_adr, set_tree, set_type, set_kp. pose proof (top_range l Hl) as Hl32.
  destruct (fors_sign_ok hs p sk_seed pk_seed t l md v 0 0 Hl32 Ev Hv) as (b1 & c1 & ->). cbn [bind].
  destruct (fors_pk_from_sig_ok hs p Hwf pk_seed t l (fors_sigS hs p sk_seed pk_seed t l v) md v b1 c1 Hl32 Ev Hv) as (b2 & c2 & ->). cbn [bind].
  rewrite fors_from_sig0 by assumption.
  rewrite ht_sign_ok; [reflexivity|exact Hl|apply h_h_length; assumption].
Qed.

Lemma verify_internal_ok msg sg pk : length sg = sig_sz p -> length pk = pk_sz p ->
  let pk_seed := slice 0 (n p) pk in
  let pk_root := skipn (n p) pk in
  let '(v, t, l) := md_of (slice 0 (n p) sg) pk_seed pk_root msg in
  slh_verify_internal hs p msg sg pk =
    Ok (bytes_eqb (ht_from pk_seed (fors_from hs p pk_seed t l (slice (n p) ((1 + k p * (1 + a p)) * n p) sg) v)
                           (skipn ((1 + k p * (1 + a p)) * n p) sg) t l) pk_root).
Proof.
  intros Ls Lp pk_seed pk_root. unfold md_of, slh_verify_internal. rewrite Ls, Lp, !Nat.eqb_refl. cbn [negb orb].
  fold pk_seed pk_root.
  destruct (split_ok (h_msg hs p (slice 0 (n p) sg) pk_seed pk_root msg)) as (md & t & l & -> & Lmd & Ht & Hl); [apply h_msg_length; assumption|].
  destruct (idxs_of md Lmd) as (v & Ev & Hv). rewrite Ev. cbn [bind].
  rewrite new_adr, set_tree, set_type, set_kp. pose proof (top_range l Hl) as Hl32.
  match goal with |- context [fors_pk_from_sig _ _ ?s] =>
    destruct (fors_pk_from_sig_ok hs p Hwf pk_seed t l s md v 0 0 Hl32 Ev Hv) as (b2 & c2 & ->) end. cbn [bind].
  rewrite ht_verify_ok; [reflexivity|exact Hl|apply h_h_length; assumption].
Qed.

Lemma md_of_range r s t x : let '(v, T, l) := md_of r s t x in
  idxs_ok p v /\ 0 <= T < 2 ^ Z.of_nat (h p - hp p) /\ 0 <= l < 2 ^ Z.of_nat (hp p).
Proof.
  unfold md_of. destruct (split_ok (h_msg hs p r s t x)) as (md & T & l & -> & Lmd & HT & Hl); [apply h_msg_length; assumption|].
  destruct (idxs_of md Lmd) as (v & -> & Hv). split; [exact Hv|]. split; assumption.
Qed.

Lemma sign_length msg sk rnd s : slh_sign_internal hs p msg sk rnd = Ok s -> length s = sig_sz p.
Proof.
  intro E. pose proof (wf_facts p Hwf) as (_ & _ & _ & D & Hh & _).
  pose proof (sign_internal_ok msg sk rnd) as S. cbv zeta in S.
  destruct (md_of _ _ _ msg) as [[v t] l]. rewrite S in E. injection E as <-.
  rewrite !app_length, prf_msg_length, fors_sigS_length, ht_sigS_length by assumption. unfold sig_sz. rewrite Hh. nia.
Qed.

Lemma sign_total msg sk rnd : exists s, slh_sign_internal hs p msg sk rnd = Ok s /\ length s = sig_sz p.
Proof.
  pose proof (sign_internal_ok msg sk rnd) as S. cbv zeta in S. destruct (md_of _ _ _ msg) as [[v t] l].
  eexists. split; [exact S|]. eapply sign_length. exact S.
Qed.

Lemma verify_total msg sg pk : exists b, slh_verify_internal hs p msg sg pk = Ok b.
Proof.
  destruct (Nat.eq_dec (length sg) (sig_sz p)) as [E1|E1]; [destruct (Nat.eq_dec (length pk) (pk_sz p)) as [E2|E2]|].
  - pose proof (verify_internal_ok msg sg pk E1 E2) as V. cbv zeta in V. destruct (md_of _ _ _ msg) as [[v t] l].
    eexists. exact V.
  - exists false. unfold slh_verify_internal. rewrite (proj2 (Nat.eqb_neq _ _) E2). rewrite orb_true_r. reflexivity.
  - exists false. unfold slh_verify_internal. rewrite (proj2 (Nat.eqb_neq _ _) E1). reflexivity.
Qed.

Theorem sign_verify sk_seed sk_prf pk_seed pk sk msg rnd s :
  length sk_seed = n p -> length sk_prf = n p -> length pk_seed = n p ->
  slh_keygen_internal hs p sk_seed sk_prf pk_seed = Ok (pk, sk) ->
  slh_sign_internal hs p msg sk rnd = Ok s ->
  slh_verify_internal hs p msg s pk = Ok true.
Proof.
  intros L1 L2 L3 K S. rewrite keygen_ok in K.
  assert (E1 : pk = pk_seed ++ top_root hs p sk_seed pk_seed) by congruence.
  assert (E2 : sk = sk_seed ++ sk_prf ++ pk_seed ++ top_root hs p sk_seed pk_seed) by congruence. clear K.
  set (root := top_root hs p sk_seed pk_seed) in *.
  assert (Lroot : length root = n p) by (apply xnode_length; assumption).
  pose proof (sign_length _ _ _ _ S) as Ls.
  pose proof (sign_internal_ok msg sk rnd) as SI. cbv zeta in SI.
  replace (slice 0 (n p) sk) with sk_seed in SI by (rewrite E2; symmetry; apply (slice_mid []); [reflexivity|exact L1]).
  replace (slice (n p) (2 * n p) sk) with sk_prf in SI by (rewrite E2; symmetry; apply slice_mid; [exact L1|rewrite app_length; lia]).
  replace (slice (2 * n p) (3 * n p) sk) with pk_seed in SI
    by (rewrite E2; symmetry; rewrite app_assoc; apply slice_mid; rewrite !app_length; lia).
  replace (skipn (3 * n p) sk) with root in SI
    by (rewrite E2; symmetry; rewrite !app_assoc; apply skipn_app_exact; rewrite !app_length; lia).
  set (r := prf_msg hs p sk_prf (match rnd with Some x => x | None => pk_seed end) msg) in *.
  assert (Lr : length r = n p) by (apply prf_msg_length; assumption).
  assert (Lpk : length pk = pk_sz p) by (rewrite E1, app_length; unfold pk_sz; lia).
  pose proof (verify_internal_ok msg s pk Ls Lpk) as V. cbv zeta in V.
  replace (slice 0 (n p) pk) with pk_seed in V by (rewrite E1; symmetry; apply (slice_mid []); [reflexivity|exact L3]).
  replace (skipn (n p) pk) with root in V by (rewrite E1; symmetry; apply skipn_app_exact; exact L3).
  pose proof (md_of_range r pk_seed root msg) as MR.
  destruct (md_of r pk_seed root msg) as [[v t] l] eqn:EM. destruct MR as (Hv & HT & Hl).
  assert (Es : s = r ++ fors_sigS hs p sk_seed pk_seed t l v ++ ht_sigS sk_seed pk_seed (fors_pkS hs p sk_seed pk_seed t l) t l) by congruence.
  assert (LF : length (fors_sigS hs p sk_seed pk_seed t l v) = (k p * (1 + a p) * n p)%nat) by (apply fors_sigS_length; assumption).
  replace (slice 0 (n p) s) with r in V by (rewrite Es; symmetry; apply (slice_mid []); [reflexivity|exact Lr]).
  rewrite EM in V. rewrite V. f_equal.
  replace (slice (n p) ((1 + k p * (1 + a p)) * n p) s) with (fors_sigS hs p sk_seed pk_seed t l v)
    by (rewrite Es; symmetry; apply slice_mid; [exact Lr|rewrite app_length; lia]).
  replace (skipn ((1 + k p * (1 + a p)) * n p) s) with (ht_sigS sk_seed pk_seed (fors_pkS hs p sk_seed pk_seed t l) t l)
    by (rewrite Es; symmetry; rewrite app_assoc; apply skipn_app_exact; rewrite app_length; lia).
  rewrite fors_from_sig0 by assumption.
  rewrite <- (app_nil_r (ht_sigS _ _ _ _ _)). rewrite ht_from_sig; [|exact Hl|exact HT|apply h_h_length; assumption].
  apply bytes_eqb_refl.
Qed.
End S.

Lemma param_sets_wf : forallb wfb param_sets = true.
Proof. vm_compute. reflexivity. Qed.
