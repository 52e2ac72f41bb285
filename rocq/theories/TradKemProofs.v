From Coq Require Import String Znumtheory.
From Verif Require Import Prelude CompSigModel TradKemModel TradKemSpec RsaMath.
Open Scope Z_scope.

(** * Numbers as bytes *)
Lemma be_length n v : length (be n v) = n.
Proof. unfold be. rewrite map_length, seq_length. reflexivity. Qed.

Lemma be_S n v : be (S n) v = v / 256 ^ Z.of_nat n mod 256 :: be n v.
Proof.
  unfold be. cbn [seq map]. f_equal.
  - replace (S n - 1 - 0)%nat with n by lia. reflexivity.
  - rewrite <- seq_shift, map_map. apply map_ext_in. intros i Hi. apply in_seq in Hi.
    replace (S n - 1 - S i)%nat with (n - 1 - i)%nat by lia. reflexivity.
Qed.

Lemma be_bytes n v : is_bytes (be n v) = true.
Proof.
  induction n as [|n IH]; [reflexivity|]. rewrite be_S. unfold is_bytes in *. cbn [forallb]. rewrite IH, andb_true_r.
  pose proof (Z.mod_pos_bound (v / 256 ^ Z.of_nat n) 256 ltac:(lia)). unfold is_byte.
  apply andb_true_iff. split; [apply Z.leb_le|apply Z.ltb_lt]; lia.
Qed.

Lemma value_be n v : value (be n v) = v mod 256 ^ Z.of_nat n.
Proof.
  induction n as [|n IH].
  - cbn [be seq map value Z.of_nat]. rewrite Z.pow_0_r, Z.mod_1_r. reflexivity.
  - rewrite be_S. cbn [value]. rewrite IH, be_length.
    rewrite Nat2Z.inj_succ, Z.pow_succ_r by lia.
    assert (P : 0 < 256 ^ Z.of_nat n) by (apply Z.pow_pos_nonneg; lia).
    rewrite (Z.mul_comm 256), Z.rem_mul_r by lia. ring.
Qed.

Lemma value_bound b : is_bytes b = true -> 0 <= value b < 256 ^ Z.of_nat (length b).
Proof.
  induction b as [|x r IH]; intro H.
  - cbn [value length]. rewrite Z.pow_0_r. lia.
  - unfold is_bytes in *. cbn [forallb] in H. apply andb_true_iff in H. destruct H as [Hx Hr]. specialize (IH Hr).
    unfold is_byte in Hx. apply andb_true_iff in Hx. destruct Hx as [H1 H2]. apply Z.leb_le in H1. apply Z.ltb_lt in H2.
    cbn [value length]. rewrite Nat2Z.inj_succ, Z.pow_succ_r by lia. nia.
Qed.

Lemma fold_value b acc : fold_left (fun a x => a * 256 + x) b acc = acc * 256 ^ Z.of_nat (length b) + value b.
Proof.
  revert acc. induction b as [|x r IH]; intro acc.
  - cbn [fold_left value length]. rewrite Z.pow_0_r. ring.
  - cbn [fold_left value length]. rewrite IH, Nat2Z.inj_succ, Z.pow_succ_r by lia. ring.
Qed.
Lemma from_bytes_value b : from_bytes b = value b.
Proof. unfold from_bytes. rewrite fold_value. ring. Qed.

Lemma to_bytes_ok n v b : to_bytes n v = Ok b <-> 0 <= v < 256 ^ Z.of_nat n /\ b = be n v.
Proof.
  unfold to_bytes. destruct (0 <=? v) eqn:A, (v <? 256 ^ Z.of_nat n) eqn:B; cbn [guard bind andb];
    try apply Z.leb_le in A; try apply Z.ltb_lt in B; try apply Z.leb_gt in A; try apply Z.ltb_ge in B.
  - split; [intro H; injection H as H; split; [lia|congruence]|intros [_ ->]; reflexivity].
  - split; [discriminate|intros [H _]; lia].
  - split; [discriminate|intros [H _]; lia].
  - split; [discriminate|intros [H _]; lia].
Qed.

Lemma be_big_endian n v : 0 <= v < 256 ^ Z.of_nat n -> big_endian n v (be n v).
Proof. intro H. split; [apply be_length|split; [apply be_bytes|]]. rewrite value_be. apply Z.mod_small, H. Qed.

Lemma big_endian_unique n v b b' : big_endian n v b -> big_endian n v b' -> b = b'.
Proof.
  revert v b b'. induction n as [|n IH]; intros v b b' (L & B & V) (L' & B' & V').
  - destruct b, b'; try discriminate. reflexivity.
  - destruct b as [|x r], b' as [|x' r']; try discriminate. cbn [length] in L, L'. injection L as L. injection L' as L'.
    unfold is_bytes in B, B'. cbn [forallb] in B, B'. apply andb_true_iff in B, B'. destruct B as [Bx Br], B' as [Bx' Br'].
    pose proof (value_bound r Br) as R. pose proof (value_bound r' Br') as R'. cbn [value] in V, V'.
    rewrite L in R, V. rewrite L' in R', V'.
    assert (x = x') as ->.
    { assert (P : 0 < 256 ^ Z.of_nat n) by (apply Z.pow_pos_nonneg; lia). nia. }
    f_equal. apply (IH (value r)); repeat split; try assumption. lia.
Qed.

Lemma be_2 v : 0 <= v < 65536 -> be 2 v = i2osp2 v.
Proof.
  intro H. unfold be, i2osp2. cbn [seq map Nat.sub Z.of_nat]. change (256 ^ Z.of_nat 1) with 256. rewrite Z.pow_0_r, Z.div_1_r.
  f_equal. apply Z.mod_small. split; [apply Z.div_pos; lia|apply Z.div_lt_upper_bound; lia].
Qed.
Lemma be_4 v : 0 <= v < 4294967296 -> be 4 v = i2osp4 v.
Proof.
  intro H. unfold be, i2osp4. cbn [seq map Nat.sub]. change (256 ^ Z.of_nat 3) with 16777216. change (256 ^ Z.of_nat 2) with 65536.
  change (256 ^ Z.of_nat 1) with 256. change (256 ^ Z.of_nat 0) with 1. rewrite Z.div_1_r.
  f_equal. apply Z.mod_small. split; [apply Z.div_pos; lia|apply Z.div_lt_upper_bound; lia].
Qed.

(** * DHKEM *)
Section Lib.
Variable L : lib.

(** The data the code takes for a curve, including the brainpool ones. *)
Definition used_kem (c : curve) : Z * hash * nat :=
  match c with
  | P256 | BP256 => (16, Sha256, 32%nat) | P384 | BP384 => (17, Sha384, 48%nat) | P521 | BP512 => (18, Sha512, 64%nat)
  | X25519 => (32, Sha256, 32%nat) | X448 => (33, Sha512, 64%nat)
  end.
Lemma used_std c k : rfc9180_kem c = Some k -> used_kem c = k.
Proof. destruct c; cbn; congruence. Qed.

Lemma derive_eq c dh ctx :
  (let! h := id_to_sha (key_id c) in extract_and_expand L h dh ctx (key_id c)) =
  Ok (let '(id, h, n) := used_kem c in
      let suite := lit "KEM" ++ i2osp2 id in
      labeled_expand L h suite (labeled_extract L h suite [] (lit "eae_prk") dh) (lit "shared_secret") ctx n).
Proof. destruct c; reflexivity. Qed.

Lemma curve_beq_refl c : curve_beq c c = true.
Proof. destruct c; reflexivity. Qed.
Lemma curve_beq_eq c c' : curve_beq c c' = true -> c = c'.
Proof. apply internal_curve_dec_bl. Qed.

Lemma derive_ok c dh enc pk :
  (let! h := id_to_sha (key_id c) in extract_and_expand L h dh (enc ++ pk) (key_id c)) = Ok (rfc9180_secret L (used_kem c) dh enc pk).
Proof. rewrite derive_eq. destruct (used_kem c) as [[i h] n]. reflexivity. Qed.

Lemma dhkem_encaps_iff ce de c q ss ct :
  dhkem_encaps L (ce, de) c q = Ok (ss, ct) <->
  ce = c /\ exists dh, t_exchange L c de q = Ok dh /\ ct = t_pub L c de /\ ss = rfc9180_secret L (used_kem c) dh ct q.
Proof.
  unfold dhkem_encaps, perform_exchange. destruct (curve_beq ce c) eqn:E.
  - apply curve_beq_eq in E. subst ce. destruct (t_exchange L c de q) as [dh|x]; cbn [bind].
    + pose proof (derive_ok c dh (t_pub L c de) q) as D. destruct (id_to_sha (key_id c)) as [h|x]; cbn [bind] in *; [|discriminate].
      rewrite D. cbn [bind]. split.
      * intro H. injection H as <- <-. split; [reflexivity|]. exists dh. repeat split.
      * intros (_ & dh' & H & -> & ->). injection H as <-. reflexivity.
    + split; [discriminate|]. intros (_ & dh & H & _). discriminate.
  - destruct (is_ec ce && is_ec c); cbn [bind]; (split; [discriminate|]; intros (-> & _); rewrite curve_beq_refl in E; discriminate).
Qed.

Lemma read_pub_iff c b q : read_pub L c b = Ok q <-> encoded L c b q.
Proof.
  destruct c; cbn [read_pub encoded];
    try (destruct (t_point L _ b) as [x|]; split; intro H; try discriminate; injection H as H; congruence).
  - destruct (length b =? 32)%nat eqn:E; [apply Nat.eqb_eq in E|apply Nat.eqb_neq in E].
    + split; [intro H; injection H as <-; split; auto|intros [_ ->]; reflexivity].
    + split; [discriminate|intros [H _]; contradiction].
  - destruct (length b =? 56)%nat eqn:E; [apply Nat.eqb_eq in E|apply Nat.eqb_neq in E].
    + split; [intro H; injection H as <-; split; auto|intros [_ ->]; reflexivity].
    + split; [discriminate|intros [H _]; contradiction].
Qed.
Lemma read_pub_error c b e : read_pub L c b = Err e -> e = EValueError.
Proof.
  destruct c; cbn [read_pub]; try (destruct (t_point L _ b)); try (destruct (length b =? _)%nat); intro H; congruence.
Qed.

Lemma dhkem_decaps_iff c d ct ss :
  dhkem_decaps L c d ct = Ok ss <->
  exists q dh, encoded L c ct q /\ t_exchange L c d q = Ok dh /\ ss = rfc9180_secret L (used_kem c) dh ct (t_pub L c d).
Proof.
  unfold dhkem_decaps. destruct (read_pub L c ct) as [q|x] eqn:R; cbn [bind].
  - apply read_pub_iff in R. unfold perform_exchange. rewrite curve_beq_refl.
    destruct (t_exchange L c d q) as [dh|x] eqn:X; cbn [bind].
    + rewrite derive_ok. split.
      * intro H. injection H as <-. exists q, dh. auto.
      * intros (q' & dh' & R' & X' & ->). rewrite <- read_pub_iff in R, R'. rewrite R in R'. injection R' as <-. congruence.
    + split; [discriminate|]. intros (q' & dh' & R' & X' & _). rewrite <- read_pub_iff in R, R'. rewrite R in R'. injection R' as <-. congruence.
  - split; [discriminate|]. intros (q' & dh' & R' & _). rewrite <- read_pub_iff in R'. congruence.
Qed.

Lemma ecdh_encaps_iff ce de c q ss ct :
  ecdh_encaps L (ce, de) c q = Ok (ss, ct) <-> ce = c /\ t_exchange L c de q = Ok ss /\ ct = t_pub L c de.
Proof.
  unfold ecdh_encaps, perform_ecdh. destruct (curve_beq ce c) eqn:E.
  - apply curve_beq_eq in E. subst ce. destruct (t_exchange L c de q) as [dh|x]; cbn [bind].
    + split; [intro H; injection H as <- <-; auto|intros (_ & H & ->); congruence].
    + split; [discriminate|intros (_ & H & _); discriminate].
  - cbn [bind]. split; [discriminate|intros (-> & _); rewrite curve_beq_refl in E; discriminate].
Qed.
Lemma ecdh_decaps_iff c d ct ss :
  ecdh_decaps L c d ct = Ok ss <-> exists q, encoded L c ct q /\ t_exchange L c d q = Ok ss.
Proof.
  unfold ecdh_decaps. destruct (read_pub L c ct) as [q|x] eqn:R; cbn [bind].
  - apply read_pub_iff in R. unfold perform_ecdh. rewrite curve_beq_refl. split.
    + intro H. exists q. auto.
    + intros (q' & R' & X'). rewrite <- read_pub_iff in R, R'. rewrite R in R'. injection R' as <-. exact X'.
  - split; [discriminate|]. intros (q' & R' & _). rewrite <- read_pub_iff in R'. congruence.
Qed.

Hypothesis G : good_lib L.

Lemma encoded_pub c d : encoded L c (t_pub L c d) (t_pub L c d).
Proof.
  destruct c; cbn [encoded]; try apply (g_point _ G).
  - split; [apply (g_x25519 _ G)|reflexivity].
  - split; [apply (g_x448 _ G)|reflexivity].
Qed.

Lemma dh_agree (rfc : bool) c d eph ss ct :
  (if rfc then dhkem_encaps L eph c (t_pub L c d) else ecdh_encaps L eph c (t_pub L c d)) = Ok (ss, ct) ->
  (if rfc then dhkem_decaps L c d ct else ecdh_decaps L c d ct) = Ok ss.
Proof.
  destruct eph as [ce de]. destruct rfc; intro H.
  - apply dhkem_encaps_iff in H. destruct H as (-> & dh & X & -> & ->). apply dhkem_decaps_iff.
    exists (t_pub L c de), dh. rewrite (g_dh _ G). repeat split; [apply encoded_pub|exact X].
  - apply ecdh_encaps_iff in H. destruct H as (-> & X & ->). apply ecdh_decaps_iff.
    exists (t_pub L c de). rewrite (g_dh _ G). split; [apply encoded_pub|exact X].
Qed.

Lemma trad_agree k priv r ss ct :
  trad_encaps L (trad_public L k) priv r = Ok (ss, ct) -> trad_decaps L k ct = Ok ss.
Proof.
  destruct k as [rfc c d|k]; cbn [trad_public trad_encaps trad_decaps].
  - intro H. apply (dh_agree rfc c d _ ss ct) in H. exact H.
  - destruct (t_oaep_enc L (t_rsa_pub L k) (r_seed r) (r_ss r)) as [c|x] eqn:E; cbn [bind]; [|discriminate].
    intro H. injection H as <- <-. apply (g_oaep _ G) in E. exact E.
Qed.
End Lib.

(** * KDF3 *)
Section Kdf.
Variable L : lib.
Hypothesis HL : forall m, length (t_hash L Sha256 m) = 32%nat.

Lemma blocks_S z n : kdf3_blocks L z (S n) = kdf3_blocks L z n ++ t_hash L Sha256 (i2osp4 (Z.of_nat (S n)) ++ z).
Proof.
  unfold kdf3_blocks. rewrite seq_S, map_app, concat_app. cbn [map concat Nat.add]. rewrite app_nil_r. reflexivity.
Qed.
Lemma blocks_length z n : length (kdf3_blocks L z n) = (32 * n)%nat.
Proof. induction n as [|n IH]; [reflexivity|]. rewrite blocks_S, app_length, IH, HL. lia. Qed.

Lemma kdf3_run z l fuel n :
  0 <= l <= 32 * (2 ^ 32 - 1) -> (l <= 32 * (Z.of_nat n + Z.of_nat fuel)) -> (32 * (Z.of_nat n - 1) < l) ->
  exists m, kdf3_loop L fuel z l (Z.of_nat n + 1) (kdf3_blocks L z n) = Ok (kdf3_blocks L z m) /\
    32 * (Z.of_nat m - 1) < l <= 32 * Z.of_nat m.
Proof.
  revert n. induction fuel as [|f IH]; intros n Hl Hf Hn.
  - cbn [kdf3_loop]. rewrite blocks_length. destruct (Z.ltb_spec (Z.of_nat (32 * n)) l); [lia|]. exists n. split; [reflexivity|lia].
  - cbn [kdf3_loop]. rewrite blocks_length. destruct (Z.ltb_spec (Z.of_nat (32 * n)) l).
    + assert (R : 0 <= Z.of_nat n + 1 < 4294967296) by (change (2 ^ 32) with 4294967296 in Hl; lia).
      assert (T : to_bytes 4 (Z.of_nat n + 1) = Ok (i2osp4 (Z.of_nat (S n)))).
      { apply to_bytes_ok. split; [exact R|]. rewrite be_4 by exact R. f_equal. lia. }
      rewrite T. cbn [bind]. rewrite <- blocks_S. replace (Z.of_nat n + 1 + 1) with (Z.of_nat (S n) + 1) by lia.
      apply IH; lia.
    + exists n. split; [reflexivity|lia].
Qed.

Lemma kdf3_ok z l : 0 <= l <= 32 * (2 ^ 32 - 1) ->
  exists n out, compute_kdf3 L z l = Ok out /\ Z.of_nat (length out) = l /\
    32 * (Z.of_nat n - 1) < l <= 32 * Z.of_nat n /\ out = firstn (Z.to_nat l) (kdf3_blocks L z n).
Proof.
  intro Hl. unfold compute_kdf3. destruct (Z.eq_dec l 0) as [->|N].
  - exists O, []. cbn. repeat split; lia.
  - destruct (kdf3_run z l (Z.to_nat l) 0 Hl) as (m & E & B); [lia|lia|].
    change (kdf3_blocks L z 0) with (@nil Z) in E. change (Z.of_nat 0 + 1) with 1 in E. rewrite E. cbn [bind].
    exists m, (firstn (Z.to_nat l) (kdf3_blocks L z m)). repeat split; try lia.
    rewrite firstn_length, blocks_length. lia.
Qed.
End Kdf.

(** * RSA-KEM *)
Lemma byte_len_spec n : 0 < n -> modulus_bytes n (byte_len n).
Proof.
  intro P. unfold modulus_bytes, byte_len. pose proof (Z.log2_spec n P) as [A B]. pose proof (Z.log2_nonneg n) as NN.
  rewrite Z2Nat.id by (apply Z.div_pos; lia).
  pose proof (Z.div_mod (Z.log2 n + 1 + 7) 8 ltac:(lia)) as D. pose proof (Z.mod_pos_bound (Z.log2 n + 1 + 7) 8 ltac:(lia)) as M.
  set (k := (Z.log2 n + 1 + 7) / 8) in *. change 256 with (2 ^ 8). rewrite <- !Z.pow_mul_r by lia. split.
  - eapply Z.le_trans; [|exact A]. apply Z.pow_le_mono_r; lia.
  - eapply Z.lt_le_trans; [exact B|]. apply Z.pow_le_mono_r; lia.
Qed.
Lemma modulus_bytes_unique n l l' : 0 < n -> modulus_bytes n l -> modulus_bytes n l' -> l = l'.
Proof.
  intros P [A B] [A' B']. destruct (Nat.lt_trichotomy l l') as [H|[H|H]]; [|exact H|]; exfalso.
  - assert (256 ^ Z.of_nat l <= 256 ^ (Z.of_nat l' - 1)) by (apply Z.pow_le_mono_r; lia). lia.
  - assert (256 ^ Z.of_nat l' <= 256 ^ (Z.of_nat l - 1)) by (apply Z.pow_le_mono_r; lia). lia.
Qed.

Lemma rsa_pair_pos e d n : rsa_pair e d n -> 0 < n.
Proof. intros (p & q & P & Q & _ & -> & _). apply prime_ge_2 in P, Q. nia. Qed.
Lemma rsa_inverse e d n z : rsa_pair e d n -> 0 <= z < n -> pow_mod (pow_mod z e n) d n = z.
Proof. intros (p & q & P & Q & N & -> & He & Hd & Ep & Eq) Hz. apply rsa_correct; assumption. Qed.
Lemma rsa_pair_sym e d n : rsa_pair e d n -> rsa_pair d e n.
Proof.
  intros (p & q & P & Q & N & E & He & Hd & Ep & Eq). exists p, q. rewrite (Z.mul_comm d e). repeat (split; [assumption|]); assumption.
Qed.

(** The KDF step of both sides. *)
Definition kdf_step (L : lib) (len : option Z) (z : bytes) : result bytes :=
  match len with None => Ok z | Some l => compute_kdf3 L z l end.

Lemma rsakem_encaps_eq L len e n rand : 0 < n ->
  forall ss ct, rsakem_encaps L len e n rand = Ok (ss, ct) <->
    0 <= rand < 256 ^ Z.of_nat (byte_len n) /\ ct = be (byte_len n) (pow_mod rand e n) /\
    kdf_step L len (be (byte_len n) rand) = Ok ss.
Proof.
  intros P ss ct. unfold rsakem_encaps, i2osp. pose proof (byte_len_spec n P) as [_ B].
  assert (T : to_bytes (byte_len n) (pow_mod rand e n) = Ok (be (byte_len n) (pow_mod rand e n))).
  { apply to_bytes_ok. split; [|reflexivity]. unfold pow_mod. pose proof (Z.mod_pos_bound (rand ^ e) n P). lia. }
  rewrite T. cbn [bind]. destruct (to_bytes (byte_len n) rand) as [z|x] eqn:Z; cbn [bind].
  - apply to_bytes_ok in Z. destruct Z as [R ->]. unfold kdf_step. destruct len as [l|].
    + destruct (compute_kdf3 L (be (byte_len n) rand) l) as [s|x]; cbn [bind].
      * split; [intro H; injection H as <- <-; auto|intros (_ & -> & H); congruence].
      * split; [discriminate|intros (_ & _ & H); discriminate].
    + split; [intro H; injection H as <- <-; auto|intros (_ & -> & H); congruence].
  - split; [discriminate|]. intros (R & _ & _).
    assert (to_bytes (byte_len n) rand = Ok (be (byte_len n) rand)) by (apply to_bytes_ok; auto). congruence.
Qed.

Lemma rsakem_decaps_eq L len d n ct : 0 < n -> is_bytes ct = true ->
  rsakem_decaps L len d n ct =
  if ((length ct =? byte_len n)%nat && (value ct <? n))%bool
  then kdf_step L len (be (byte_len n) (pow_mod (value ct) d n)) else Err EValueError.
Proof.
  intros P B. unfold rsakem_decaps, i2osp. rewrite from_bytes_value. pose proof (byte_len_spec n P) as [_ U].
  destruct (length ct =? byte_len n)%nat; cbn [guard bind andb]; [|reflexivity].
  destruct (value ct <? n); cbn [guard bind]; [|reflexivity].
  assert (T : to_bytes (byte_len n) (pow_mod (value ct) d n) = Ok (be (byte_len n) (pow_mod (value ct) d n))).
  { apply to_bytes_ok. split; [|reflexivity]. unfold pow_mod. pose proof (Z.mod_pos_bound (value ct ^ d) n P). lia. }
  rewrite T. cbn [bind]. destruct len; reflexivity.
Qed.

Lemma rsakem_agree L len e d n rand ss ct : rsa_pair e d n -> 0 <= rand < n ->
  rsakem_encaps L len e n rand = Ok (ss, ct) -> rsakem_decaps L len d n ct = Ok ss.
Proof.
  intros K R E. pose proof (rsa_pair_pos _ _ _ K) as P. apply rsakem_encaps_eq in E; [|exact P]. destruct E as (_ & -> & E).
  pose proof (byte_len_spec n P) as [_ U].
  rewrite rsakem_decaps_eq by (exact P || apply be_bytes). rewrite be_length, Nat.eqb_refl. cbn [andb].
  assert (V : value (be (byte_len n) (pow_mod rand e n)) = pow_mod rand e n).
  { rewrite value_be. apply Z.mod_small. unfold pow_mod. pose proof (Z.mod_pos_bound (rand ^ e) n P). lia. }
  rewrite V. assert (W : pow_mod rand e n < n) by (unfold pow_mod; apply Z.mod_pos_bound, P).
  apply Z.ltb_lt in W. rewrite W, (rsa_inverse e d n rand K R). exact E.
Qed.

Lemma rsakem_binding L d e n ct ct' z : rsa_pair e d n -> is_bytes ct = true -> is_bytes ct' = true ->
  rsakem_decaps L None d n ct = Ok z -> rsakem_decaps L None d n ct' = Ok z -> ct = ct'.
Proof.
  intros K B B' E E'. pose proof (rsa_pair_pos _ _ _ K) as P.
  rewrite rsakem_decaps_eq in E, E' by assumption.
  destruct ((length ct =? byte_len n)%nat && (value ct <? n))%bool eqn:C; [|discriminate].
  destruct ((length ct' =? byte_len n)%nat && (value ct' <? n))%bool eqn:C'; [|discriminate].
  cbn [kdf_step] in E, E'. injection E as E. injection E' as E'. rewrite <- E' in E.
  apply andb_true_iff in C, C'. destruct C as [C1 C2], C' as [C1' C2'].
  apply Nat.eqb_eq in C1, C1'. apply Z.ltb_lt in C2, C2'.
  pose proof (value_bound ct B) as V. pose proof (value_bound ct' B') as V'.
  apply (f_equal value) in E. rewrite !value_be in E. pose proof (byte_len_spec n P) as [_ U].
  assert (X : pow_mod (value ct) d n = pow_mod (value ct') d n).
  { unfold pow_mod in *. pose proof (Z.mod_pos_bound (value ct ^ d) n P). pose proof (Z.mod_pos_bound (value ct' ^ d) n P).
    rewrite (Z.mod_small (value ct ^ d mod n)), (Z.mod_small (value ct' ^ d mod n)) in E by lia. exact E. }
  apply (f_equal (fun z => pow_mod z e n)) in X. apply rsa_pair_sym in K.
  rewrite !(rsa_inverse d e n) in X by (exact K || lia).
  apply (big_endian_unique (byte_len n) (value ct)); repeat split; auto.
Qed.
