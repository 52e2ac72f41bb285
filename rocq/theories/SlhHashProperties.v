(** Property C56: the SLH-DSA hash functions of pq_logic/fips/fips205.py are those of
    FIPS 205 section 11, and their inputs can be read in one way only.  [is_mgf1],
    [is_hmac] and [adr_c] (SlhHash.v) are the definitions of RFC 8017, RFC 2104 and section 11.2;
    [adr] is the 32-byte address of section 4.2. *)
From Verif Require Import SlhSpec LatFacts SlhWitness SlhTop SlhHash.
From Coq Require Import Lia.
Local Open Scope Z_scope.

(** Section 11.1: the SHAKE parameter sets. *)
Theorem C56_shake : forall hs p pk_seed pk_root sk_seed sk_prf rnd r msg A, fam p = SHAKE ->
  prf hs p pk_seed sk_seed A = r_shake256 hs (pk_seed ++ A ++ sk_seed) (n p) /\
  h_f hs p pk_seed A msg = r_shake256 hs (pk_seed ++ A ++ msg) (n p) /\
  h_h hs p pk_seed A msg = r_shake256 hs (pk_seed ++ A ++ msg) (n p) /\
  h_t hs p pk_seed A msg = r_shake256 hs (pk_seed ++ A ++ msg) (n p) /\
  prf_msg hs p sk_prf rnd msg = r_shake256 hs (sk_prf ++ rnd ++ msg) (n p) /\
  h_msg hs p r pk_seed pk_root msg = r_shake256 hs (r ++ pk_seed ++ pk_root ++ msg) (m p).
Proof. intros. unfold prf, h_t, h_h, h_f, prf_msg, h_msg. rewrite H. repeat split. Qed.

(** Sections 11.2.1 and 11.2.2: F and PRF always use SHA-256; H, T, H_msg and PRF_msg use
    SHA-256 when n = 16 and SHA-512 otherwise.  [l], [t], [y], [kp], [b], [c] are the fields of the address. *)
Definition sha2_small (hs : raw) (p : params) (pk_seed : bytes) (A_c x : bytes) : bytes :=
  firstn (n p) (r_sha256 hs (pk_seed ++ repeat 0 (64 - n p) ++ A_c ++ x)).
Theorem C56_sha2_f : forall hs p pk_seed sk_seed msg l t y kp b c, fam p = SHA2 -> 0 <= l < 2 ^ 8 -> 0 <= y < 2 ^ 8 ->
  prf hs p pk_seed sk_seed (adr l t y kp b c) = sha2_small hs p pk_seed (adr_c l t y kp b c) sk_seed /\
  h_f hs p pk_seed (adr l t y kp b c) msg = sha2_small hs p pk_seed (adr_c l t y kp b c) msg.
Proof.
  intros hs p pk_seed sk_seed msg l t y kp b c Hf Hl Hy. unfold prf, h_f, sha2_small, sha256t. rewrite Hf, adrsc_adr.
  split; reflexivity.
Qed.
Theorem C56_sha2_128 : forall hs p pk_seed pk_root sk_prf rnd r msg l t y kp b c, raw_ok hs -> fam p = SHA2 -> n p = 16%nat ->
  0 <= l < 2 ^ 8 -> 0 <= y < 2 ^ 8 ->
  h_h hs p pk_seed (adr l t y kp b c) msg = sha2_small hs p pk_seed (adr_c l t y kp b c) msg /\
  h_t hs p pk_seed (adr l t y kp b c) msg = sha2_small hs p pk_seed (adr_c l t y kp b c) msg /\
  is_mgf1 (r_sha256 hs) 32 (r ++ pk_seed ++ r_sha256 hs (r ++ pk_seed ++ pk_root ++ msg)) (m p) (h_msg hs p r pk_seed pk_root msg) /\
  exists mac, is_hmac (r_sha256 hs) 64 sk_prf (rnd ++ msg) mac /\ prf_msg hs p sk_prf rnd msg = firstn (n p) mac.
Proof.
  intros hs p pk_seed pk_root sk_prf rnd r msg l t y kp b c Hr Hf Hn Hl Hy.
  assert (T : forall x, sha256t hs x 32 = r_sha256 hs x)
    by (intro x; unfold sha256t; apply firstn_all2; rewrite (ok_sha256 _ Hr); lia).
  assert (MG : forall sd k, mgf (fun x => sha256t hs x 32) 32 sd k = mgf (r_sha256 hs) 32 sd k).
  { intros sd k. unfold mgf. f_equal. apply flat_map_ext. intro x. apply T. }
  unfold h_t, h_h, h_msg, prf_msg, sha2_small. rewrite Hf, Hn, adrsc_adr. rewrite !MG, !T.
  split; [reflexivity|]. split; [reflexivity|]. split.
  - apply mgf_mgf1; [lia|apply (ok_sha256 _ Hr)].
  - exists (hmac (fun x => sha256t hs x 32) 64 sk_prf (rnd ++ msg)). split; [|reflexivity].
    unfold hmac. rewrite !T. replace (if (64 <? length sk_prf)%nat then sha256t hs sk_prf 32 else sk_prf)
      with (if (64 <? length sk_prf)%nat then r_sha256 hs sk_prf else sk_prf) by (rewrite T; reflexivity).
    apply (hmac_is_hmac (r_sha256 hs) 64 sk_prf (rnd ++ msg)). intro x. rewrite (ok_sha256 _ Hr). lia.
Qed.
Theorem C56_sha2_192_256 : forall hs p pk_seed pk_root sk_prf rnd r msg l t y kp b c, raw_ok hs -> fam p = SHA2 -> n p <> 16%nat ->
  0 <= l < 2 ^ 8 -> 0 <= y < 2 ^ 8 ->
  let H := fun x => firstn (n p) (r_sha512 hs (pk_seed ++ repeat 0 (128 - n p) ++ adr_c l t y kp b c ++ x)) in
  h_h hs p pk_seed (adr l t y kp b c) msg = H msg /\ h_t hs p pk_seed (adr l t y kp b c) msg = H msg /\
  is_mgf1 (r_sha512 hs) 64 (r ++ pk_seed ++ r_sha512 hs (r ++ pk_seed ++ pk_root ++ msg)) (m p) (h_msg hs p r pk_seed pk_root msg) /\
  exists mac, is_hmac (r_sha512 hs) 128 sk_prf (rnd ++ msg) mac /\ prf_msg hs p sk_prf rnd msg = firstn (n p) mac.
Proof.
  intros hs p pk_seed pk_root sk_prf rnd r msg l t y kp b c Hr Hf Hn Hl Hy. cbv zeta.
  assert (T : forall x, sha512t hs x 64 = r_sha512 hs x)
    by (intro x; unfold sha512t; apply firstn_all2; rewrite (ok_sha512 _ Hr); lia).
  assert (MG : forall sd k, mgf (fun x => sha512t hs x 64) 64 sd k = mgf (r_sha512 hs) 64 sd k).
  { intros sd k. unfold mgf. f_equal. apply flat_map_ext. intro x. apply T. }
  apply Nat.eqb_neq in Hn. unfold h_t, h_h, h_msg, prf_msg. rewrite Hf, Hn, adrsc_adr. rewrite !MG, !T.
  split; [reflexivity|]. split; [reflexivity|]. split.
  - apply mgf_mgf1; [lia|apply (ok_sha512 _ Hr)].
  - exists (hmac (fun x => sha512t hs x 64) 128 sk_prf (rnd ++ msg)). split; [|reflexivity].
    unfold hmac. rewrite !T. replace (if (128 <? length sk_prf)%nat then sha512t hs sk_prf 64 else sk_prf)
      with (if (128 <? length sk_prf)%nat then r_sha512 hs sk_prf else sk_prf) by (rewrite T; reflexivity).
    apply (hmac_is_hmac (r_sha512 hs) 128 sk_prf (rnd ++ msg)). intro x. rewrite (ok_sha512 _ Hr). lia.
Qed.

(** The hashed strings above determine the public seed, the address and the data. *)
Theorem C56_unambiguous : forall (z : nat) (pk pk' x x' : bytes) l t y kp b c l' t' y' kp' b' c',
  length pk = length pk' -> 0 <= l < 2 ^ 8 -> 0 <= l' < 2 ^ 8 -> 0 <= t < 2 ^ 64 -> 0 <= t' < 2 ^ 64 ->
  0 <= y < 2 ^ 8 -> 0 <= y' < 2 ^ 8 -> 0 <= kp < 2 ^ 32 -> 0 <= kp' < 2 ^ 32 ->
  0 <= b < 2 ^ 32 -> 0 <= b' < 2 ^ 32 -> 0 <= c < 2 ^ 32 -> 0 <= c' < 2 ^ 32 ->
  pk ++ repeat 0 z ++ adr_c l t y kp b c ++ x = pk' ++ repeat 0 z ++ adr_c l' t' y' kp' b' c' ++ x' \/
  pk ++ adr l t y kp b c ++ x = pk' ++ adr l' t' y' kp' b' c' ++ x' ->
  pk = pk' /\ (l, t, y, kp, b, c) = (l', t', y', kp', b', c') /\ x = x'.
Proof.
  intros z pk pk' x x' l t y kp b c l' t' y' kp' b' c' L Hl Hl' Ht Ht' Hy Hy' Hk Hk' Hb Hb' Hc Hc' [E|E].
  - apply app_inj in E; [|exact L]. destruct E as [E1 E]. apply app_inv_head in E.
    apply app_inj in E; [|unfold adr_c; rewrite !app_length, !be_length; reflexivity]. destruct E as [E2 E3].
    change (adr_c l t y kp b c) with ([l mod 256] ++ be 8 t ++ [y mod 256] ++ be 4 kp ++ be 4 b ++ be 4 c) in E2.
    change (adr_c l' t' y' kp' b' c') with ([l' mod 256] ++ be 8 t' ++ [y' mod 256] ++ be 4 kp' ++ be 4 b' ++ be 4 c') in E2.
    rewrite <- !adrsc_adr in E2. apply adrsc_inj in E2; try assumption.
    destruct E2 as (-> & -> & -> & -> & -> & ->). auto.
  - apply tweak_full_inj in E; [|exact L|rewrite !adr_length; reflexivity]. destruct E as (E1 & E2 & E3).
    assert (W : forall u, 0 <= u < 2 ^ 8 -> 0 <= u < 2 ^ 32) by (intros u Hu; lia).
    apply adr_inj in E2; try assumption; try (apply W; assumption); try (split; lia).
    destruct E2 as (-> & -> & -> & -> & -> & ->). auto.
Qed.
(** Concrete cases: the compressed address of chain 5, position 6 of key pair 4 in tree 3 of layer 2,
    an MGF1 mask over two blocks, and hash functions with the right lengths. *)
Example C56_ex : raw_ok toy /\ adr_c 2 3 0 4 5 6 = [2; 0; 0; 0; 0; 0; 0; 0; 3; 0; 0; 0; 0; 4; 0; 0; 0; 5; 0; 0; 0; 6] /\
  mgf (fun x => firstn 2 (rev x)) 2 [9] 3 = [0; 0; 1].
Proof. split; [exact toy_ok|]. split; reflexivity. Qed.
Print Assumptions C56_shake.
Print Assumptions C56_sha2_f.
Print Assumptions C56_sha2_128.
Print Assumptions C56_sha2_192_256.
Print Assumptions C56_unambiguous.
