(** The outer ML-DSA functions (sign, verify and their pre-hash variants) and
    signatures of the wrong length. *)
From Verif Require Import LatFacts MlDsaHint MlDsaRound MlDsaRing MlDsaSample MlDsaEnc MlDsaSig.
Local Open Scope Z_scope.
Local Opaque ntt ntt_inverse mul_ntt decompose.

(** * Hints on vectors *)
Lemma use_make_hint_vec p n z r : good_gam2 (gam2 p) -> polys n r -> polys n z ->
  Forall (Forall (small q (gam2 p))) z ->
  use_hint p (make_hint p z r) r = high_bits p (vadd r z).
Proof.
  intros G [Lr Fr] [Lz Fz] S. unfold use_hint, make_hint, vneq, high_bits.
  rewrite !map_length, seq_length. unfold vadd. rewrite map_map. rewrite Lr.
  apply map_ext_in. intros i Hi. apply in_seq in Hi. cbn [Nat.add] in Hi. destruct Hi as [_ Hi].
  assert (Li : length (nthp i r) = 256%nat) by (apply (nthp_forall (fun f => length f = 256%nat) r i Fr); lia).
  assert (Lzi : length (nthp i z) = 256%nat) by (apply (nthp_forall (fun f => length f = 256%nat) z i Fz); lia).
  assert (Si : Forall (small q (gam2 p)) (nthp i z)) by (apply (nthp_forall _ z i S); lia).
  rewrite nthp_seq by exact Hi. rewrite !nthp_map by (try rewrite map_length, seq_length; lia).
  rewrite nthp_seq by exact Hi.
  apply nthz_ext; [unfold padd; rewrite !map_length, !seq_length; symmetry; exact Li|].
  intros x Hx. rewrite map_length, seq_length in Hx.
  rewrite (nthz_map_seq (fun c => use_hint1 (gam2 p) _ (nthz c (nthp i r)))) by exact Hx.
  assert (Lp : length (padd (nthp i r) (nthp i z)) = 256%nat) by (unfold padd; rewrite map_length, seq_length; exact Li).
  rewrite nthz_map by lia.
  unfold pneq. rewrite map_length, Li.
  rewrite (nthz_map_seq (fun i0 => if nthz i0 (map _ _) =? nthz i0 (map _ _) then 0 else 1)) by exact Hx.
  rewrite !nthz_map by lia.
  apply (use_make_hint (gam2 p) (nthz x (nthp i r)) _ (nthz x (nthp i z)) G).
  - unfold padd. rewrite Li. rewrite (nthz_map_seq (fun c => (nthz c (nthp i r) + nthz c (nthp i z)) mod q)) by exact Hx.
    apply cg_mod. exact q_nz.
  - apply (nthz_forall _ _ x Si). lia.
Qed.

(** * Signatures of the wrong length *)
Lemma slice_app_l {X} a b (s x : list X) : (b <= length s)%nat -> slice a b (s ++ x) = slice a b s.
Proof.
  intro H. unfold slice. destruct (Nat.le_gt_cases a b) as [Hab|Hab].
  - apply firstn_skipn_app_l. lia.
  - replace (b - a)%nat with 0%nat by lia. reflexivity.
Qed.
Lemma sig_decode_trailing p sg x : (sig_len p <= length sg)%nat -> sig_decode p (sg ++ x) = sig_decode p sg.
Proof.
  unfold sig_len, z_bytes. intro H. unfold sig_decode.
  set (bl := (32 * (1 + bit_length (gam1 p - 1)))%nat) in *. clearbody bl.
  set (cl := Nat.div (lam p) 4) in *. clearbody cl.
  rewrite (slice_app_l 0 cl) by lia.
  rewrite (slice_app_l (cl + bl * ell p)) by lia.
  rewrite (mapM_ext (fun i => bit_unpack (slice (cl + bl * i) (cl + bl * (i + 1)) (sg ++ x)) (gam1 p - 1) (gam1 p))
                    (fun i => bit_unpack (slice (cl + bl * i) (cl + bl * (i + 1)) sg) (gam1 p - 1) (gam1 p))).
  - reflexivity.
  - intros i Hi. apply in_seq in Hi. rewrite slice_app_l; [reflexivity|]. nia.
Qed.

Lemma hint_rows_short p y : forall n i idx, (0 < n)%nat -> (length y < omega p + i + n)%nat ->
  hint_unpack_rows p (seq i n) idx y = Err EIndexError \/ hint_unpack_rows p (seq i n) idx y = Ok None.
Proof.
  induction n as [|n IH]; intros i idx Hn H; [lia|]. cbn [seq hint_unpack_rows].
  destruct (Nat.leb_spec (length y) (omega p + i)) as [L|L]; [left; reflexivity|]. cbv zeta.
  destruct ((_ <? _) || _); [right; reflexivity|].
  destruct (hint_unpack_row _ _ _ _ _); [|right; reflexivity].
  destruct (IH (S i) (Z.to_nat (nthz (omega p + i) y))) as [E|E]; [lia|lia|rewrite E; left; reflexivity|rewrite E; right; reflexivity].
Qed.
Lemma slice_length_le {X} a b (s : list X) : (length (slice a b s) <= length s - a)%nat /\ (length (slice a b s) <= b - a)%nat.
Proof. unfold slice. rewrite firstn_length, skipn_length. lia. Qed.
Lemma sig_decode_short p sg : (0 < k p)%nat -> (0 < ell p)%nat -> bit_length (gam1 p - 1 + gam1 p) = (1 + bit_length (gam1 p - 1))%nat ->
  (length sg < sig_len p)%nat ->
  sig_decode p sg = Err EIndexError \/ exists ct z, sig_decode p sg = Ok (ct, z, None).
Proof.
  unfold sig_len, z_bytes. intros Hk He Bl H. unfold sig_decode.
  set (bl := (32 * (1 + bit_length (gam1 p - 1)))%nat) in *. set (cl := Nat.div (lam p) 4) in *. clearbody cl.
  destruct (mapM _ (seq 0 (ell p))) as [z|e] eqn:Ez.
  - cbn [bind].
    assert (Lz : (cl + bl * ell p <= length sg)%nat).
    { destruct (Nat.le_gt_cases (cl + bl * ell p) (length sg)) as [?|G]; [assumption|exfalso].
      destruct (mapM_ok_inv _ _ _ Ez) as [L N]. rewrite seq_length in L.
      specialize (N (ell p - 1)%nat 0%nat []). rewrite seq_length in N. specialize (N ltac:(lia)).
      rewrite seq_nth in N by lia. cbn [Nat.add] in N. rewrite bit_unpack_short in N; [discriminate|].
      pose proof (slice_length_le (cl + bl * (ell p - 1)) (cl + bl * (ell p - 1 + 1)) sg) as [L1 _].
      rewrite Bl. change (32 * (1 + bit_length (gam1 p - 1)))%nat with bl.
      destruct (ell p) as [|n]; [lia|]. replace (S n - 1)%nat with n in * by lia.
      assert (0 < bl)%nat by (unfold bl; lia). clearbody bl. rewrite Nat.mul_succ_r in G. lia. }
    set (y := slice _ _ sg).
    assert (Ly : (length y < omega p + 0 + k p)%nat).
    { pose proof (slice_length_le (cl + bl * ell p) (cl + bl * ell p + omega p + k p) sg) as [L1 _]. fold y in L1. lia. }
    unfold hint_bit_unpack. destruct (hint_rows_short p y (k p) 0 0 Hk Ly) as [E|E]; rewrite E; cbn [bind]; [left; reflexivity|].
    right. eauto.
  - left. cbn [bind]. f_equal. symmetry.
    assert (forall (x : nat) e', bit_unpack (slice (cl + bl * x) (cl + bl * (x + 1)) sg) (gam1 p - 1) (gam1 p) = Err e' -> e' = EIndexError).
    { intros x e' E. rewrite bit_unpack_groups in E. destruct (groups _ _ _) as [ys|r] eqn:Eg; [discriminate|]. cbn [bind] in E.
      assert (r = e') by congruence. subst e'.
      destruct (Nat.le_gt_cases (256 * bit_length (gam1 p - 1 + gam1 p)) (length (bytes_to_bits (slice (cl + bl * x) (cl + bl * (x + 1)) sg)))) as [A|A].
      - destruct (groups_ok _ _ _ A) as (cs & G & _). congruence.
      - rewrite groups_short in Eg by exact A. congruence. }
    symmetry. eapply err_runtime_mapM; [exact H0|exact Ez].
Qed.

(** * sign and verify *)
Section Top.
Variable hs : hashes.
Variable p : params.
Lemma byte1 n : (n <= 255)%nat -> integer_to_bytes (Z.of_nat n) 1 = [Z.of_nat n].
Proof. intro H. apply byte_of_nat. lia. Qed.

Lemma sign_ok fuel sk m ctx rnd s : sign hs p fuel sk m ctx rnd = Some (Ok (Some s)) ->
  (length ctx <= 255)%nat /\
  sign_internal hs p fuel sk ([0; Z.of_nat (length ctx)] ++ ctx ++ m) (default_rnd rnd) = Some (Ok s).
Proof.
  unfold sign. destruct (Nat.ltb_spec 255 (length ctx)) as [H|H]; [discriminate|]. cbv zeta. rewrite byte1 by exact H.
  change (integer_to_bytes 0 1) with [0]. cbn [app]. intro E. split; [exact H|].
  destruct (sign_internal _ _ _ _ _ _) as [[s'|]|]; [|discriminate|discriminate]. cbn [bind] in E. congruence.
Qed.
Lemma verify_eq pk m sg ctx : (length ctx <= 255)%nat ->
  verify hs p pk m sg ctx = verify_internal hs p pk ([0; Z.of_nat (length ctx)] ++ ctx ++ m) sg.
Proof.
  intro H. unfold verify. destruct (Nat.ltb_spec 255 (length ctx)); [lia|]. cbv zeta. rewrite byte1 by exact H. reflexivity.
Qed.
Lemma hash_sign_ok fuel sk m ctx ph rnd s : hash_ml_dsa_sign hs p fuel sk m ctx ph rnd = Some (Ok (Some s)) ->
  (length ctx <= 255)%nat /\ exists oid dig, ph_digest hs ph m = Some (oid, dig) /\
  sign_internal hs p fuel sk ([1; Z.of_nat (length ctx)] ++ ctx ++ oid ++ dig) (default_rnd rnd) = Some (Ok s).
Proof.
  unfold hash_ml_dsa_sign. destruct (Nat.ltb_spec 255 (length ctx)) as [H|H]; [discriminate|].
  destruct (ph_digest hs ph m) as [[oid dig]|] eqn:D; [|discriminate]. cbv zeta. rewrite byte1 by exact H.
  change (integer_to_bytes 1 1) with [1]. cbn [app]. intro E. split; [exact H|]. exists oid, dig. split; [reflexivity|].
  destruct (sign_internal _ _ _ _ _ _) as [[s'|]|]; [|discriminate|discriminate]. cbn [bind] in E. congruence.
Qed.
Lemma hash_verify_eq pk m sg ctx ph oid dig : (length ctx <= 255)%nat -> ph_digest hs ph m = Some (oid, dig) ->
  hash_ml_dsa_verify hs p pk m sg ctx ph =
  let! b := verify_internal hs p pk ([1; Z.of_nat (length ctx)] ++ ctx ++ oid ++ dig) sg in Ok (Some b).
Proof.
  intros H D. unfold hash_ml_dsa_verify. destruct (Nat.ltb_spec 255 (length ctx)); [lia|]. rewrite D. cbv zeta.
  rewrite byte1 by exact H. reflexivity.
Qed.

Lemma sign_loop_mono : forall fuel ah s1 s2 t0 mu r kappa x n,
  sign_loop hs p fuel ah s1 s2 t0 mu r kappa = Some x -> sign_loop hs p (fuel + n) ah s1 s2 t0 mu r kappa = Some x.
Proof.
  induction fuel as [|f IH]; intros ah s1 s2 t0 mu r kappa x n; [discriminate|]. cbn [sign_loop Nat.add].
  destruct (sign_attempt _ _ _ _ _ _ _ _ _) as [[[[ct z] h]|]|]; try (intro E; exact E). apply IH.
Qed.
Lemma sign_internal_mono fuel sk mp rnd x n :
  sign_internal hs p fuel sk mp rnd = Some x -> sign_internal hs p (fuel + n) sk mp rnd = Some x.
Proof.
  unfold sign_internal. destruct (sk_decode p sk); [|intro E; exact E].
  destruct (expand_a _ _ _); [|intro E; exact E]. apply sign_loop_mono.
Qed.

Lemma verify_trailing pk mp sg x : (sig_len p <= length sg)%nat ->
  verify_internal hs p pk mp (sg ++ x) = verify_internal hs p pk mp sg.
Proof. intro H. unfold verify_internal. rewrite sig_decode_trailing by exact H. reflexivity. Qed.
Lemma verify_short pk mp sg : good_params p -> length pk = (32 + 320 * k p)%nat -> is_bytes pk = true ->
  (length sg < sig_len p)%nat ->
  verify_internal hs p pk mp sg = Err EIndexError \/ verify_internal hs p pk mp sg = Ok false.
Proof.
  intros Hp Lpk Bpk H. unfold verify_internal.
  pose proof Hp as (Hd & _ & _ & _ & _ & _ & Hg & Hk & He).
  destruct (pk_decode_encode p pk Hd Lpk Bpk) as (rho & t1 & -> & _). cbn [bind].
  destruct (sig_decode_short p sg Hk He (bl_gam1 _ Hg) H) as [E|(ct & z & E)]; rewrite E; cbn [bind]; [left|right]; reflexivity.
Qed.
End Top.

(** * Formatted messages *)
Lemma app_inj_length {X} (a b c d : list X) : length a = length c -> a ++ b = c ++ d -> a = c /\ b = d.
Proof.
  revert c. induction a as [|x a IH]; intros [|y c] L E; try discriminate; [auto|].
  cbn in L, E. injection E as -> E. injection L as L. destruct (IH c L E) as [-> ->]. auto.
Qed.
Lemma fmt_inj (d1 d2 : Z) (ctx1 ctx2 m1 m2 : bytes) :
  [d1; Z.of_nat (length ctx1)] ++ ctx1 ++ m1 = [d2; Z.of_nat (length ctx2)] ++ ctx2 ++ m2 ->
  d1 = d2 /\ ctx1 = ctx2 /\ m1 = m2.
Proof.
  cbn [app]. intro E. assert (d1 = d2) by congruence. assert (Z.of_nat (length ctx1) = Z.of_nat (length ctx2)) by congruence.
  assert (E' : ctx1 ++ m1 = ctx2 ++ m2) by congruence. apply app_inj_length in E'; [|apply Nat2Z.inj; assumption]. tauto.
Qed.
Lemma ph_inj hs ph1 ph2 m1 m2 oid1 oid2 d1 d2 : ph_digest hs ph1 m1 = Some (oid1, d1) -> ph_digest hs ph2 m2 = Some (oid2, d2) ->
  oid1 ++ d1 = oid2 ++ d2 -> ph1 = ph2 /\ d1 = d2.
Proof.
  destruct ph1, ph2; cbn [ph_digest]; try discriminate; intros E1 E2; injection E1 as <- <-; injection E2 as <- <-;
    cbn [app]; intro E; try discriminate E; split; try reflexivity; congruence.
Qed.

(** * Further facts *)
Lemma param_sets_dims p : In p param_sets -> (k p < 256)%nat /\ (ell p < 256)%nat.
Proof. intros [<-|[<-|[<-|[]]]]; split; apply Nat.ltb_lt; reflexivity. Qed.
Lemma intt_padd f g : length f = 256%nat -> length g = 256%nat -> ntt_inverse (padd (ntt f) (ntt g)) = radd f g.
Proof.
  intros Lf Lg. rewrite padd_radd by (apply ntt_length; exact Lf).
  apply red_eq; [apply ntt_inverse_length, radd_length|apply radd_length|apply ntt_inverse_reduced|apply radd_reduced|].
  intros c Hc.
  rewrite (Lin_comb_add q 256 ntt_inverse (ntt f) (ntt g) (radd (ntt f) (ntt g)) ntt_inverse_Lin
             (ntt_length f Lf) (ntt_length g Lg) (radd_length _ _) (fun c0 H0 => radd_nth _ _ c0 H0) c Hc).
  destruct (intt_ntt f Lf) as (_ & _ & Ef). destruct (intt_ntt g Lg) as (_ & _ & Eg).
  rewrite (Ef c Hc), (Eg c Hc), radd_nth by exact Hc. reflexivity.
Qed.
Lemma expand_mask_range hs p rho kappa y : In p param_sets -> hash_lengths hs -> expand_mask hs p rho kappa = Ok y ->
  vec_in (1 - gam1 p) (gam1 p) (ell p) y.
Proof.
  intros Hp Hh E. destruct (param_sets_good p Hp) as (_ & _ & _ & _ & _ & _ & Hg & _). unfold expand_mask in E.
  pose proof (bl_gam1 _ Hg) as Bl.
  destruct (mapM_ok_inv _ _ _ E) as [L N]. rewrite seq_length in L, N. split; [exact L|].
  apply Forall_forall. intros f Hf. destruct (In_nth _ _ [] Hf) as (i & Hi & <-).
  specialize (N i 0%nat [] ltac:(lia)). set (v := shake256 hs _ _) in N.
  assert (Lv : length v = (32 * bit_length (gam1 p - 1 + gam1 p))%nat) by (unfold v; rewrite (proj1 (proj1 Hh _ _)), Bl; reflexivity).
  assert (Bv : is_bytes v = true) by apply Hh.
  destruct (bit_unpack_ok v _ _ Lv Bv) as (w & Ew & Lw & Fw & _). rewrite Ew in N.
  assert (Ef : nth i y [] = w) by congruence. rewrite Ef. split; [exact Lw|].
  eapply Forall_impl; [|exact Fw]. intros x Hx. cbv beta in *.
  assert (2 ^ Z.of_nat (bit_length (gam1 p - 1 + gam1 p)) = 2 * gam1 p) by (destruct Hg as [->| ->]; reflexivity). lia.
Qed.
