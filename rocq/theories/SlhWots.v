(** WOTS+ : key generation, signing and recomputation of the public key. *)
From Verif Require Import SlhSpec LatFacts SlhDigits.
From Coq Require Import Lia.
Local Open Scope Z_scope.

Section S.
Variable hs : raw.
Variable p : params.
Hypothesis Hraw : raw_ok hs.
Hypothesis Hwf : wfb p = true.

Lemma wf_facts : (1 <= lg_w p)%nat /\ (len1 p * lg_w p = 8 * n p)%nat /\ (n p <= 32)%nat /\ (1 <= d p)%nat /\
  (h p = hp p * d p)%nat /\ (hp p <= 31)%nat /\ Z.of_nat (k p) * 2 ^ Z.of_nat (a p) <= 2 ^ 32 /\
  (Nat.div (k p * a p + 7) 8 + Nat.div (h p - hp p + 7) 8 + Nat.div (hp p + 7) 8 <= m p)%nat.
Proof.
  pose proof Hwf as W. unfold wfb in W.
  apply andb_prop in W. destruct W as [W H8]. apply andb_prop in W. destruct W as [W H7].
  apply andb_prop in W. destruct W as [W H6]. apply andb_prop in W. destruct W as [W H5].
  apply andb_prop in W. destruct W as [W H4]. apply andb_prop in W. destruct W as [W H3].
  apply andb_prop in W. destruct W as [H1 H2].
  apply Nat.leb_le in H1, H3, H4, H6, H8. apply Nat.eqb_eq in H2, H5. apply Z.leb_le in H7.
  split; [exact H1|]. split; [exact H2|]. split; [exact H3|]. split; [exact H4|]. split; [exact H5|].
  split; [exact H6|]. split; [exact H7|exact H8].
Qed.

Lemma sha256t_length x l : (l <= 32)%nat -> length (sha256t hs x l) = l.
Proof. intro H. unfold sha256t. rewrite firstn_length, (ok_sha256 _ Hraw). lia. Qed.
Lemma sha512t_length x l : (l <= 64)%nat -> length (sha512t hs x l) = l.
Proof. intro H. unfold sha512t. rewrite firstn_length, (ok_sha512 _ Hraw). lia. Qed.

Lemma prf_length pk sk a : length (prf hs p pk sk a) = n p.
Proof.
  pose proof wf_facts as (_ & _ & N & _). unfold prf. destruct (fam p); [apply (ok_shake256 _ Hraw)|apply sha256t_length; exact N].
Qed.
Lemma h_f_length pk x a : length (h_f hs p pk a x) = n p.
Proof.
  pose proof wf_facts as (_ & _ & N & _). unfold h_f. destruct (fam p); [apply (ok_shake256 _ Hraw)|apply sha256t_length; exact N].
Qed.
Lemma h_h_length pk x a : length (h_h hs p pk a x) = n p.
Proof.
  pose proof wf_facts as (_ & _ & N & _). unfold h_h. destruct (fam p); [apply (ok_shake256 _ Hraw)|].
  destruct (n p =? 16)%nat; [apply sha256t_length; exact N|apply sha512t_length; lia].
Qed.

Lemma flat_map_length_const {A B} (f : A -> list B) c l : (forall x, In x l -> length (f x) = c) -> length (flat_map f l) = (c * length l)%nat.
Proof.
  induction l as [|x l IH]; intro H; [cbn; lia|]. cbn [flat_map length]. rewrite app_length, IH, H; [lia|left; reflexivity|].
  intros y Hy. apply H. right. exact Hy.
Qed.

Lemma mgf_length f hl seed ml : (0 < hl)%nat -> (forall x, length (f x) = hl) -> length (mgf f hl seed ml) = ml.
Proof.
  intros H0 Hf. unfold mgf. rewrite firstn_length, (flat_map_length_const _ hl) by (intros; apply Hf).
  rewrite seq_length. pose proof (Nat.mul_succ_div_gt (ml + hl - 1) hl ltac:(lia)). nia.
Qed.
Lemma h_msg_length r s t x : length (h_msg hs p r s t x) = m p.
Proof.
  unfold h_msg. destruct (fam p); [apply (ok_shake256 _ Hraw)|].
  destruct (n p =? 16)%nat; apply mgf_length; try lia; intro; [apply sha256t_length|apply sha512t_length]; lia.
Qed.
Lemma prf_msg_length r s x : length (prf_msg hs p r s x) = n p.
Proof.
  pose proof wf_facts as (_ & _ & N & _).
  unfold prf_msg. destruct (fam p); [apply (ok_shake256 _ Hraw)|].
  destruct (n p =? 16)%nat; rewrite firstn_length; unfold hmac; [rewrite sha256t_length|rewrite sha512t_length]; lia.
Qed.

Variables sk pk : bytes.

Lemma chain_loop_ok l t kp i : forall steps from x c,
  exists c', chain_loop hs p (seq from steps) pk x (adr l t WOTS_HASH kp (Z.of_nat i) c) =
             (chainS hs p pk l t kp i from steps x, adr l t WOTS_HASH kp (Z.of_nat i) c').
Proof.
  induction steps as [|s IH]; intros from x c; [exists c; reflexivity|].
  cbn [seq chain_loop]. rewrite set_hash. destruct (IH (S from) (h_f hs p pk (adr l t WOTS_HASH kp (Z.of_nat i) (Z.of_nat from)) x) (Z.of_nat from))
    as (c' & E). exists c'. exact E.
Qed.

Lemma chain_ok l t kp i x f s c : 0 <= f -> 0 <= s -> f + s < w p ->
  exists c', chain hs p x f s pk (adr l t WOTS_HASH kp (Z.of_nat i) c) =
             Ok (chainS hs p pk l t kp i (Z.to_nat f) (Z.to_nat s) x, adr l t WOTS_HASH kp (Z.of_nat i) c').
Proof.
  intros Hf Hs H. unfold chain. replace (f + s >=? w p) with false by (symmetry; rewrite Z.geb_leb; apply Z.leb_gt; lia).
  destruct (chain_loop_ok l t kp i (Z.to_nat s) (Z.to_nat f) x c) as (c' & ->). exists c'. reflexivity.
Qed.

Lemma chainS_comp l t kp i f s1 s2 x :
  chainS hs p pk l t kp i (f + s1) s2 (chainS hs p pk l t kp i f s1 x) = chainS hs p pk l t kp i f (s1 + s2) x.
Proof. unfold chainS. rewrite seq_app, fold_left_app. reflexivity. Qed.

Lemma chainS_length l t kp i f s x : length x = n p -> length (chainS hs p pk l t kp i f s x) = n p.
Proof.
  revert f x. induction s as [|s IH]; intros f x H; [exact H|]. unfold chainS. cbn [seq fold_left]. apply IH. apply h_f_length.
Qed.

Lemma w_pos : 1 < w p.
Proof.
  pose proof wf_facts as (L & _). unfold w. change 1 with (2 ^ 0). apply Z.pow_lt_mono_r; lia.
Qed.

Lemma pkgen_loop_ok l t kp is : forall tmp b c b',
  exists b2 c2, pkgen_loop hs p is sk pk tmp (adr l t WOTS_PRF kp b' 0) (adr l t WOTS_HASH kp b c) =
    Ok (tmp ++ flat_map (fun i => chainS hs p pk l t kp i 0 (Z.to_nat (w p - 1)) (wots_skS hs p sk pk l t kp i)) is,
        adr l t WOTS_HASH kp b2 c2).
Proof.
  pose proof w_pos as W.
  induction is as [|i is IH]; intros tmp b c b'.
  - exists b, c. cbn [pkgen_loop flat_map]. rewrite app_nil_r. reflexivity.
  - cbn [pkgen_loop]. rewrite !set_chain.
    destruct (chain_ok l t kp i (prf hs p pk sk (adr l t WOTS_PRF kp (Z.of_nat i) 0)) 0 (w p - 1) c ltac:(lia) ltac:(lia) ltac:(lia)) as (c1 & ->).
    cbn [bind]. destruct (IH (tmp ++ chainS hs p pk l t kp i 0 (Z.to_nat (w p - 1)) (wots_skS hs p sk pk l t kp i)) (Z.of_nat i) c1 (Z.of_nat i))
      as (b2 & c2 & E). exists b2, c2. unfold wots_skS in *. change (Z.to_nat 0) with 0%nat.
    rewrite E. cbn [flat_map]. rewrite app_assoc. reflexivity.
Qed.

Lemma wots_pkgen_ok l t kp b c : 0 <= kp < 2 ^ 32 ->
  exists b2 c2, wots_pkgen hs p sk pk (adr l t WOTS_HASH kp b c) = Ok (wots_pkS hs p sk pk l t kp, adr l t WOTS_HASH kp b2 c2).
Proof.
  intro H. unfold wots_pkgen. rewrite get_kp, set_type, set_kp by exact H.
  destruct (pkgen_loop_ok l t kp (seq 0 (len p)) [] b c 0) as (b2 & c2 & ->). cbn [bind app].
  rewrite get_kp, set_type, set_kp by exact H. exists b2, c2. reflexivity.
Qed.

(** The digits exist whenever the message has [n] bytes. *)
Lemma wots_digits_range msg : length msg = n p ->
  exists v, wots_digits p msg = Ok v /\ length v = len p /\ Forall (fun x => 0 <= x < w p) v.
Proof.
  pose proof wf_facts as (L & D & _). intro H. unfold wots_digits.
  destruct (base_2b_range msg (lg_w p) (len1 p)) as (v & -> & Lv & Rv); [lia|]. cbn [bind].
  match goal with |- context [base_2b ?s (lg_w p) (len2 p)] => destruct (base_2b_range s (lg_w p) (len2 p)) as (c & -> & Lc & Rc) end.
  { unfold to_byte. rewrite be_length. pose proof (Nat.mul_succ_div_gt (len2 p * lg_w p + 7) 8 ltac:(lia)). lia. }
  cbn [bind]. exists (v ++ c). split; [reflexivity|]. split; [rewrite app_length; unfold len; lia|].
  apply Forall_app. split; assumption.
Qed.

Lemma digit_range v i : length v = len p -> Forall (fun x => 0 <= x < w p) v -> 0 <= nthz i v < w p.
Proof.
  intros L F. destruct (le_lt_dec (length v) i) as [H|H].
  - unfold nthz. rewrite nth_overflow by exact H. pose proof w_pos. lia.
  - rewrite Forall_forall in F. apply F. unfold nthz. apply nth_In. exact H.
Qed.

Lemma wsign_loop_ok l t kp v is : length v = len p -> Forall (fun x => 0 <= x < w p) v -> forall sg b c b',
  exists b2 c2, wsign_loop hs p is v sk pk sg (adr l t WOTS_PRF kp b' 0) (adr l t WOTS_HASH kp b c) =
    Ok (sg ++ flat_map (fun i => chainS hs p pk l t kp i 0 (Z.to_nat (nthz i v)) (wots_skS hs p sk pk l t kp i)) is,
        adr l t WOTS_HASH kp b2 c2).
Proof.
  intros Lv Rv. induction is as [|i is IH]; intros sg b c b'.
  - exists b, c. cbn [wsign_loop flat_map]. rewrite app_nil_r. reflexivity.
  - cbn [wsign_loop]. rewrite !set_chain. pose proof (digit_range v i Lv Rv) as R.
    destruct (chain_ok l t kp i (prf hs p pk sk (adr l t WOTS_PRF kp (Z.of_nat i) 0)) 0 (nthz i v) c ltac:(lia) ltac:(lia) ltac:(lia)) as (c1 & ->).
    cbn [bind]. destruct (IH (sg ++ chainS hs p pk l t kp i 0 (Z.to_nat (nthz i v)) (wots_skS hs p sk pk l t kp i)) (Z.of_nat i) c1 (Z.of_nat i))
      as (b2 & c2 & E). exists b2, c2. unfold wots_skS in *. change (Z.to_nat 0) with 0%nat.
    rewrite E. cbn [flat_map]. rewrite app_assoc. reflexivity.
Qed.

Lemma wots_sign_ok l t kp msg v b c : 0 <= kp < 2 ^ 32 -> length msg = n p -> wots_digits p msg = Ok v ->
  exists b2 c2, wots_sign hs p msg sk pk (adr l t WOTS_HASH kp b c) = Ok (wots_sigS hs p sk pk l t kp v, adr l t WOTS_HASH kp b2 c2).
Proof.
  intros H Lm Ev. destruct (wots_digits_range msg Lm) as (v' & Ev' & Lv & Rv). rewrite Ev in Ev'. injection Ev' as <-.
  unfold wots_sign. rewrite Ev. cbn [bind]. rewrite get_kp, set_type, set_kp by exact H.
  destruct (wsign_loop_ok l t kp v (seq 0 (len p)) Lv Rv [] b c 0) as (b2 & c2 & ->). exists b2, c2. reflexivity.
Qed.

(** What wots_pk_from_sig computes from any signature. *)
Definition wots_from (l t kp : Z) (sg : bytes) (v : list Z) : bytes :=
  h_t hs p pk (adr l t WOTS_PK kp 0 0)
    (flat_map (fun i => chainS hs p pk l t kp i (Z.to_nat (nthz i v)) (Z.to_nat (w p - 1 - nthz i v)) (slice (i * n p) ((i + 1) * n p) sg)) (seq 0 (len p))).

Lemma wpk_loop_ok l t kp v sg is : length v = len p -> Forall (fun x => 0 <= x < w p) v -> forall tmp b c,
  exists b2 c2, wpk_loop hs p is v sg pk tmp (adr l t WOTS_HASH kp b c) =
    Ok (tmp ++ flat_map (fun i => chainS hs p pk l t kp i (Z.to_nat (nthz i v)) (Z.to_nat (w p - 1 - nthz i v)) (slice (i * n p) ((i + 1) * n p) sg)) is,
        adr l t WOTS_HASH kp b2 c2).
Proof.
  intros Lv Rv. induction is as [|i is IH]; intros tmp b c.
  - exists b, c. cbn [wpk_loop flat_map]. rewrite app_nil_r. reflexivity.
  - cbn [wpk_loop]. rewrite !set_chain. pose proof (digit_range v i Lv Rv) as R.
    destruct (chain_ok l t kp i (slice (i * n p) ((i + 1) * n p) sg) (nthz i v) (w p - 1 - nthz i v) c ltac:(lia) ltac:(lia) ltac:(lia)) as (c1 & ->).
    cbn [bind]. destruct (IH (tmp ++ chainS hs p pk l t kp i (Z.to_nat (nthz i v)) (Z.to_nat (w p - 1 - nthz i v)) (slice (i * n p) ((i + 1) * n p) sg)) (Z.of_nat i) c1)
      as (b2 & c2 & ->). exists b2, c2. cbn [flat_map]. rewrite app_assoc. reflexivity.
Qed.

Lemma wots_pk_from_sig_ok l t kp sg msg v b c : 0 <= kp < 2 ^ 32 -> length msg = n p -> wots_digits p msg = Ok v ->
  exists b2 c2, wots_pk_from_sig hs p sg msg pk (adr l t WOTS_HASH kp b c) = Ok (wots_from l t kp sg v, adr l t WOTS_HASH kp b2 c2).
Proof.
  intros H Lm Ev. destruct (wots_digits_range msg Lm) as (v' & Ev' & Lv & Rv). rewrite Ev in Ev'. injection Ev' as <-.
  unfold wots_pk_from_sig. rewrite Ev. cbn [bind].
  destruct (wpk_loop_ok l t kp v sg (seq 0 (len p)) Lv Rv [] b c) as (b2 & c2 & ->). cbn [bind].
  rewrite get_kp, set_type, set_kp by exact H. exists b2, c2. reflexivity.
Qed.

Lemma slice_flat_map (f : nat -> bytes) c : (forall i, length (f i) = c) -> forall N s i tl, (i < N)%nat ->
  slice (i * c) ((i + 1) * c) (flat_map f (seq s N) ++ tl) = f (s + i)%nat.
Proof.
  intros Hf. induction N as [|N IH]; intros s i tl Hi; [lia|].
  cbn [seq flat_map]. destruct i as [|i].
  - unfold slice. rewrite Nat.mul_0_l. cbn [skipn]. rewrite <- app_assoc.
    rewrite Nat.add_0_r. apply firstn_app_exact. rewrite Hf. lia.
  - rewrite <- app_assoc. unfold slice. replace (S i * c)%nat with (c + i * c)%nat by lia.
    rewrite skipn_app. rewrite skipn_all2 by (rewrite Hf; lia). rewrite Hf. cbn [app].
    replace (c + i * c - c)%nat with (i * c)%nat by lia.
    replace ((S i + 1) * c - (c + i * c))%nat with ((i + 1) * c - i * c)%nat by lia.
    specialize (IH (S s) i tl ltac:(lia)). unfold slice in IH. rewrite IH. f_equal. lia.
Qed.

Lemma wots_skS_length l t kp i : length (wots_skS hs p sk pk l t kp i) = n p.
Proof. apply prf_length. Qed.

Lemma flat_map_ext_in' {A B} (f g : A -> list B) l : (forall x, In x l -> f x = g x) -> flat_map f l = flat_map g l.
Proof.
  induction l as [|x l IH]; intro H; [reflexivity|]. cbn [flat_map]. rewrite (H x (or_introl eq_refl)). f_equal.
  apply IH. intros y Hy. apply H. right. exact Hy.
Qed.

Lemma wots_from_sig l t kp v tl : length v = len p -> Forall (fun x => 0 <= x < w p) v ->
  wots_from l t kp (wots_sigS hs p sk pk l t kp v ++ tl) v = wots_pkS hs p sk pk l t kp.
Proof.
  intros Lv Rv. unfold wots_from, wots_pkS, wots_sigS. f_equal. apply flat_map_ext_in'. intros i Hi. apply in_seq in Hi.
  rewrite (slice_flat_map (fun i => chainS hs p pk l t kp i 0 (Z.to_nat (nthz i v)) (wots_skS hs p sk pk l t kp i))).
  - cbn [Nat.add]. pose proof (digit_range v i Lv Rv).
    change (Z.to_nat (nthz i v)) with (0 + Z.to_nat (nthz i v))%nat at 1. rewrite chainS_comp. f_equal. lia.
  - intro j. apply chainS_length. apply wots_skS_length.
  - lia.
Qed.

Lemma wots_sigS_length l t kp v : length (wots_sigS hs p sk pk l t kp v) = (len p * n p)%nat.
Proof.
  unfold wots_sigS. rewrite (flat_map_length_const _ (n p)).
  - rewrite seq_length. lia.
  - intros i _. apply chainS_length, wots_skS_length.
Qed.
Lemma wots_pkS_length l t kp : length (wots_pkS hs p sk pk l t kp) = n p.
Proof. apply h_h_length. Qed.
End S.
