(** The statements about FrodoKEM for the three parameter sets. *)

From Coq Require Import Arith ZArith List Bool Lia.
From Verif Require Import Prelude PreludeFacts FrodoModel FrodoSpec FrodoProofs FrodoKem FrodoTop.
Import ListNotations.
Open Scope Z_scope.

Local Notation PV := params_of.

Lemma e_n v : p_n (PV v) = dim v. Proof. destruct v; reflexivity. Qed.
Lemma e_D v : p_D (PV v) = dbits v. Proof. destruct v; reflexivity. Qed.
Lemma e_B v : p_B (PV v) = mbits v. Proof. destruct v; reflexivity. Qed.
Lemma e_mu v : p_mu (PV v) = seclen v. Proof. destruct v; reflexivity. Qed.
Lemma e_s v : p_s (PV v) = seclen v. Proof. destruct v; reflexivity. Qed.
Lemma e_kk v : p_k (PV v) = seclen v. Proof. destruct v; reflexivity. Qed.
Lemma e_ss v : p_ss (PV v) = seclen v. Proof. destruct v; reflexivity. Qed.
Lemma e_pkh v : p_pkh (PV v) = seclen v. Proof. destruct v; reflexivity. Qed.
Lemma e_salt v : p_salt (PV v) = saltlen v. Proof. destruct v; reflexivity. Qed.
Lemma e_SE v : p_seedSE (PV v) = saltlen v. Proof. destruct v; reflexivity. Qed.
Lemma e_A v : p_seedA (PV v) = 16%nat. Proof. destruct v; reflexivity. Qed.
Lemma e_z v : p_z (PV v) = 16%nat. Proof. destruct v; reflexivity. Qed.
Lemma e_chi v : p_chi (PV v) = chi_of v. Proof. destruct v; reflexivity. Qed.
Lemma e_q v : p_q (PV v) = modulus v. Proof. destruct (g_pow _ (params_good v)) as (H & _). rewrite H, e_D. reflexivity. Qed.
Lemma e_sh L v m k : shake L (PV v) m k = xof L v m k. Proof. destruct v; reflexivity. Qed.

Ltac dims := rewrite ?e_n, ?e_D, ?e_B, ?e_mu, ?e_s, ?e_kk, ?e_ss, ?e_pkh, ?e_salt, ?e_SE, ?e_A, ?e_z, ?e_chi, ?e_q, ?e_sh.

Lemma split3 {A} (l : list A) a b c : length l = (a + b + c)%nat ->
  exists x y z, l = x ++ y ++ z /\ length x = a /\ length y = b /\ length z = c /\
    x = firstn a l /\ y = firstn b (skipn a l) /\ z = skipn (a + b) l.
Proof.
  intros H. exists (firstn a l), (firstn b (skipn a l)), (skipn b (skipn a l)).
  assert (E : forall (x y : nat) (m : list A), skipn x (skipn y m) = skipn (y + x) m).
  { intros x y. induction y as [|y IH]; intros m; [reflexivity|]. destruct m; simpl; [apply skipn_nil|apply IH]. }
  split; [rewrite !firstn_skipn; reflexivity|].
  rewrite firstn_length, firstn_length, !skipn_length. repeat split; try lia. apply E.
Qed.

(** What a key pair is. *)
Lemma keygen_main L v aes seed : good_lib L -> length seed = seedlen v -> is_bytes seed = true ->
  exists s seedSE z Sb,
    let seedA := xof L v z 16 in
    let b := packed (PV v) (k_B L (PV v) aes seedSE seedA) in
    let pk := seedA ++ b in
    seed = s ++ seedSE ++ z /\ length s = seclen v /\ length seedSE = saltlen v /\ length z = 16%nat /\
    s = firstn (seclen v) seed /\ seedSE = firstn (saltlen v) (skipn (seclen v) seed) /\
    z = skipn (seclen v + saltlen v) seed /\
    is_bytes s = true /\ length seedA = 16%nat /\ length b = (dbits v * dim v)%nat /\
    length Sb = (2 * (8 * dim v))%nat /\ is_bytes Sb = true /\
    d_S (PV v) Sb = Mtr 8 (dim v) (k_St L (PV v) seedSE) /\
    kem_keygen L (PV v) aes seed = Ok (pk, s ++ pk ++ Sb ++ xof L v pk (seclen v)).
Proof.
  intros HL Hlen Hb. unfold seedlen in Hlen.
  destruct (split3 seed _ _ _ Hlen) as (s & se & z & E & H1 & H2 & H3 & F1 & F2 & F3).
  pose proof (params_good v) as HG.
  destruct (keygen_ok L (PV v) aes HL HG s se z) as (Sb & K1 & K2 & K3 & K4); try (dims; assumption).
  exists s, se, z, Sb. rewrite e_A, e_sh in K1. cbv zeta.
  rewrite e_n in K2, K4. repeat split; try assumption.
  - rewrite E, is_bytes_app in Hb. apply andb_true_iff in Hb. apply Hb.
  - rewrite <- e_sh. rewrite (sh_length L (PV v) HL). reflexivity.
  - rewrite <- e_D, <- e_n. apply (pack_n8 (PV v) HG). apply build_mat.
  - rewrite E, K1. dims. rewrite <- !app_assoc. reflexivity.
Qed.

Lemma encaps_main L v aes pk mu salt : good_lib L -> length pk = pklen v -> length mu = seclen v -> length salt = saltlen v ->
  let seedA := firstn 16 pk in let b := skipn 16 pk in
  let pkh := xof L v pk (seclen v) in
  let ct := packed (PV v) (e_Bp L (PV v) aes seedA pkh mu salt) ++ packed (PV v) (e_C L (PV v) b pkh mu salt) ++ salt in
  kem_encaps L (PV v) aes pk (mu ++ salt) = Ok (ct, xof L v (ct ++ e_k L (PV v) pkh mu salt) (seclen v)) /\
  length ct = ctlen v.
Proof.
  intros HL Hpk Hmu Hsalt seedA b pkh ct. unfold pklen in Hpk. pose proof (params_good v) as HG.
  assert (E : pk = seedA ++ b) by (symmetry; apply firstn_skipn).
  assert (HA : length seedA = 16%nat) by (unfold seedA; rewrite firstn_length; lia).
  assert (Hb : length b = (dbits v * dim v)%nat) by (unfold b; rewrite skipn_length; lia).
  split.
  - pose proof (encaps_ok L (PV v) aes HL HG seedA b mu salt) as H. rewrite <- E in H. cbv zeta in H.
    rewrite !e_pkh, !e_sh, e_ss in H. fold pkh in H. apply H; dims; assumption.
  - unfold ct, ctlen. rewrite !app_length, Hsalt.
    destruct (pack_8n (PV v) (e_Bp L (PV v) aes seedA pkh mu salt) ltac:(apply build_mat)) as (_ & ->).
    destruct (pack_88 (PV v) (e_C L (PV v) b pkh mu salt) ltac:(apply build_mat)) as (_ & ->).
    dims. lia.
Qed.

Lemma e_rb_stream L v pk mu salt :
  e_rb L (PV v) (xof L v pk (seclen v)) mu salt = enc_stream L v pk mu salt.
Proof.
  unfold e_rb, enc_stream, e_sk, seedSE_k. dims. unfold slice. rewrite Nat.sub_0_r. reflexivity.
Qed.

Lemma noise_exchange L v seed seedSE pk mu salt i j : (i < 8)%nat -> (j < 8)%nat ->
  seedSE = firstn (saltlen v) (skipn (seclen v) seed) ->
  noise L (PV v) seedSE (e_rb L (PV v) (xof L v pk (seclen v)) mu salt) i j = exchange_noise L v seed pk mu salt i j.
Proof.
  intros Hi Hj HS. rewrite e_rb_stream. unfold noise, exchange_noise. dims.
  unfold k_E, k_St, k_rb. dims. rewrite HS. fold (key_stream L v seed).
  f_equal; [f_equal|].
  - apply sigma_ext. intros k Hk. unfold drawn_mat. rewrite !at_build by assumption. dims. unfold enc_S, key_E.
    do 3 f_equal. lia.
  - unfold drawn_mat. rewrite at_build by assumption. dims. unfold enc_E2. do 2 f_equal. lia.
  - apply sigma_ext. intros k Hk. unfold drawn_mat. rewrite !at_build by assumption. dims. unfold enc_E, key_S.
    do 3 f_equal; lia.
Qed.

Theorem agreement L v aes seed mu salt :
  good_lib L -> length seed = seedlen v -> is_bytes seed = true ->
  length mu = seclen v -> is_bytes mu = true -> length salt = saltlen v ->
  exists pk sk ct ss,
    kem_keygen L (PV v) aes seed = Ok (pk, sk) /\ length pk = pklen v /\ length sk = sklen v /\
    kem_encaps L (PV v) aes pk (mu ++ salt) = Ok (ct, ss) /\ length ct = ctlen v /\ length ss = seclen v /\
    (no_failure L v seed pk mu salt -> kem_decaps L (PV v) aes sk ct = Ok ss).
Proof.
  intros HL Hseed Bseed Hmu Bmu Hsalt. pose proof (params_good v) as HG.
  destruct (keygen_main L v aes seed HL Hseed Bseed) as (s & se & z & Sb & H).
  cbv zeta in H. set (seedA := xof L v z 16) in *. set (b := packed (PV v) (k_B L (PV v) aes se seedA)) in *.
  destruct H as (Eseed & Hs & Hse & Hz & F1 & F2 & F3 & Bs & HA & Hb & HSb & BSb & HS & HK).
  set (pk := seedA ++ b) in *.
  assert (Hpk : length pk = pklen v) by (unfold pk, pklen; rewrite app_length; lia).
  destruct (encaps_main L v aes pk mu salt HL Hpk Hmu Hsalt) as (HE & HC). cbv zeta in HE, HC.
  assert (E1 : firstn 16 pk = seedA) by (unfold pk; rewrite firstn_app, HA, firstn_all2 by lia; simpl; apply app_nil_r).
  assert (E2 : skipn 16 pk = b) by (unfold pk; rewrite skipn_app, HA, skipn_all2 by lia; reflexivity).
  rewrite E1, E2 in HE, HC.
  set (pkh := xof L v pk (seclen v)) in *.
  set (c1 := packed (PV v) (e_Bp L (PV v) aes seedA pkh mu salt)) in *.
  set (c2 := packed (PV v) (e_C L (PV v) b pkh mu salt)) in *.
  assert (Hpkh : length pkh = seclen v) by (unfold pkh; rewrite <- e_sh; apply (sh_length L (PV v) HL)).
  exists pk. exists (s ++ pk ++ Sb ++ pkh). exists (c1 ++ c2 ++ salt).
  exists (xof L v ((c1 ++ c2 ++ salt) ++ e_k L (PV v) pkh mu salt) (seclen v)).
  split; [exact HK|]. split; [exact Hpk|].
  split; [unfold sklen; rewrite !app_length; lia|].
  split; [exact HE|]. split; [exact HC|].
  split; [rewrite <- e_sh; apply (sh_length L (PV v) HL)|].
  intros HN.
  assert (L1 : length c1 = (p_D (PV v) * p_n (PV v))%nat) by (apply pack_8n; apply build_mat).
  assert (L2 : length c2 = (p_D (PV v) * 8)%nat) by (apply pack_88; apply build_mat).
  pose proof (decaps_ok L (PV v) aes HL HG s seedA b Sb pkh c1 c2 salt) as HD. cbv zeta in HD.
  assert (Hmu' : d_mu (PV v) Sb c1 c2 = mu).
  { unfold c1, c2, b. apply (honest_mu L (PV v) aes HG se).
    - rewrite e_n. exact HS.
    - rewrite e_mu. exact Hmu.
    - exact Bmu.
    - intros i j Hi Hj. unfold pkh. rewrite (noise_exchange L v seed) by assumption.
      rewrite e_q, e_B. exact (HN i j Hi Hj). }
  rewrite Hmu' in HD. fold c1 in HD. fold c2 in HD. rewrite bytes_eqb_refl in HD.
  unfold pk. rewrite <- !app_assoc. rewrite HD.
  - dims. rewrite <- !app_assoc. reflexivity.
  - dims. assumption.
  - dims. assumption.
  - dims. assumption.
  - dims. assumption.
  - dims. assumption.
  - assumption.
  - assumption.
  - dims. assumption.
  - assumption.
  - apply packed_bytes.
  - apply packed_bytes.
Qed.

Lemma decrypts v Sb c1 c2 salt :
  length c1 = (dbits v * dim v)%nat -> length c2 = (dbits v * 8)%nat ->
  decrypts_to v (stored_S v Sb) (c1 ++ c2 ++ salt) (d_mu (PV v) Sb c1 c2).
Proof.
  intros H1 H2. pose proof (params_good v) as HG. unfold d_mu. split; [|split].
  - rewrite <- e_mu. apply (Mdec_length (PV v) HG).
  - apply (Mdec_bytes (PV v)).
  - intros i j l Hi Hj Hl w b' c m.
    assert (HB : (0 < mbits v)%nat) by lia.
    change (lsb_bit (Mdec (PV v) (d_M (PV v) Sb c1 c2)) ((i * 8 + j) * mbits v + l))
      with (le_bit (Mdec (PV v) (d_M (PV v) Sb c1 c2)) ((i * 8 + j) * mbits v + l)).
    unfold Mdec. rewrite e_B. rewrite le_bit_bytes.
    2:{ replace (mbits v * 8 * 8)%nat with (8 * mbits v * 8)%nat by ring. rewrite div8_mul.
        assert ((i * 8 + j < 64)%nat) by lia. nia. }
    destruct (index_join (mbits v) 8 i j l HB ltac:(lia) Hj Hl) as (-> & -> & ->).
    assert (Em : at_ (d_M (PV v) Sb c1 c2) i j = m).
    { unfold d_M, Msub. rewrite at_build by assumption. unfold unpacked at 1. rewrite at_build by assumption.
      rewrite at_Mmul by assumption. rewrite Zminus_mod_idemp_r. unfold m. rewrite e_q. f_equal. f_equal.
      - unfold c. rewrite unpacked_number, e_D. fold w. unfold number_at. apply sigma_ext. intros k Hk.
        assert (Eb : msb_bit c2 ((i * 8 + j) * w + k) = msb_bit (skipn (w * dim v) (c1 ++ c2 ++ salt)) ((i * 8 + j) * w + k)).
        { unfold w. rewrite <- H1. rewrite skipn_app, skipn_all, Nat.sub_diag. simpl skipn. rewrite app_nil_l. unfold msb_bit.
          rewrite app_nth1; [reflexivity|]. rewrite H2. apply Nat.div_lt_upper_bound; [lia|].
          assert ((i * 8 + j < 64)%nat) by lia. fold w. nia. }
        rewrite Eb. reflexivity.
      - rewrite e_n. apply sigma_ext. intros k Hk. f_equal.
        + unfold unpacked. rewrite at_build by (rewrite ?e_n; assumption).
          unfold b'. rewrite unpacked_number, e_D, ?e_n. fold w. unfold number_at. apply sigma_ext. intros t Ht.
          assert (Eb : msb_bit c1 ((i * dim v + k) * w + t) = msb_bit (c1 ++ c2 ++ salt) ((i * dim v + k) * w + t)).
          { unfold msb_bit. rewrite app_nth1; [reflexivity|]. rewrite H1. fold w.
            assert ((i * dim v + k < 8 * dim v)%nat) by nia.
            apply Nat.div_lt_upper_bound; [lia|]. nia. }
          rewrite Eb. reflexivity.
        + unfold d_S, Mtr. rewrite e_n. rewrite at_build by assumption. rewrite at_build by assumption. reflexivity. }
    rewrite Em. unfold dc. rewrite e_B, e_q. apply Z.mod_pow2_bits_low. lia.
Qed.

Theorem rejection L v aes s pk Sb ct :
  good_lib L -> length s = seclen v -> is_bytes s = true -> length pk = pklen v ->
  length Sb = (2 * (8 * dim v))%nat -> length ct = ctlen v -> is_bytes ct = true ->
  let salt := skipn (dbits v * dim v + dbits v * 8) ct in
  exists mu ct' ss',
    decrypts_to v (stored_S v Sb) ct mu /\
    kem_encaps L (PV v) aes pk (mu ++ salt) = Ok (ct', ss') /\
    kem_decaps L (PV v) aes (s ++ pk ++ Sb ++ xof L v pk (seclen v)) ct =
      Ok (if bytes_eqb ct ct' then ss' else xof L v (ct ++ s) (seclen v)).
Proof.
  intros HL Hs Bs Hpk HSb Hct Bct salt. pose proof (params_good v) as HG. unfold ctlen in Hct.
  destruct (split3 ct _ _ _ Hct) as (c1 & c2 & sa & E & H1 & H2 & H3 & F1 & F2 & F3).
  assert (Esa : salt = sa) by (symmetry; exact F3). clearbody salt. clear F1 F2 F3. subst sa.
  set (mu := d_mu (PV v) Sb c1 c2).
  assert (Hdec : decrypts_to v (stored_S v Sb) ct mu) by (rewrite E; apply decrypts; assumption).
  destruct (encaps_main L v aes pk mu salt HL Hpk (proj1 Hdec) H3) as (HE & HC). cbv zeta in HE, HC.
  exists mu. eexists. eexists. split; [exact Hdec|]. split; [exact HE|].
  unfold pklen in Hpk.
  assert (Epk : pk = firstn 16 pk ++ skipn 16 pk) by (symmetry; apply firstn_skipn).
  set (seedA := firstn 16 pk) in *. set (b := skipn 16 pk) in *.
  set (pkh := xof L v pk (seclen v)) in *.
  assert (HA : length seedA = 16%nat) by (unfold seedA; rewrite firstn_length; lia).
  assert (Hb : length b = (dbits v * dim v)%nat) by (unfold b; rewrite skipn_length; lia).
  assert (Hpkh : length pkh = seclen v) by (unfold pkh; rewrite <- e_sh; apply (sh_length L (PV v) HL)).
  rewrite E in Bct. rewrite !is_bytes_app in Bct. apply andb_true_iff in Bct. destruct Bct as (B1 & Bct).
  apply andb_true_iff in Bct. destruct Bct as (B2 & _).
  pose proof (decaps_ok L (PV v) aes HL HG s seedA b Sb pkh c1 c2 salt) as HD. cbv zeta in HD. fold mu in HD.
  rewrite <- E in HD.
  replace (s ++ pk ++ Sb ++ pkh) with (s ++ seedA ++ b ++ Sb ++ pkh)
    by (rewrite Epk at 1; rewrite <- !app_assoc; reflexivity).
  rewrite HD; try (dims; assumption).
  dims. f_equal.
  match goal with |- context [bytes_eqb ct ?c] => destruct (bytes_eqb_spec ct c) as [Eq|Ne] end.
  - rewrite <- Eq. reflexivity.
  - reflexivity.
Qed.

Theorem encaps_length L v aes pk ms : length pk <> pklen v -> kem_encaps L (PV v) aes pk ms = Err EAssertion.
Proof.
  intros H. unfold kem_encaps. rewrite e_A, e_D, e_n, (g_nbar _ (params_good v)).
  replace (Nat.eqb (8 * length pk) (8 * 16 + dbits v * dim v * 8)) with false; [reflexivity|].
  symmetry. apply Nat.eqb_neq. unfold pklen in H. lia.
Qed.

Theorem decaps_length L v aes sk ct : length ct <> ctlen v \/ length sk <> sklen v ->
  kem_decaps L (PV v) aes sk ct = Err EAssertion.
Proof.
  intros H. unfold kem_decaps. rewrite (g_ct _ (params_good v)), (g_sk _ (params_good v)).
  dims.
  destruct (Z.eqb_spec (Z.of_nat (length ct)) (Z.of_nat (dbits v * dim v + dbits v * 8 + saltlen v))) as [E|E]; [|reflexivity].
  cbn [guard bind].
  destruct (Z.eqb_spec (Z.of_nat (length sk)) (Z.of_nat (seclen v + (16 + dbits v * dim v) + 2 * (8 * dim v) + seclen v))) as [E'|E']; [|reflexivity].
  exfalso. apply Nat2Z.inj in E. apply Nat2Z.inj in E'. unfold ctlen, sklen, pklen in H. tauto.
Qed.

Lemma gen_pub_A L v aes seedA i j : (i < dim v)%nat -> (j < dim v)%nat ->
  at_ (gen L (PV v) aes seedA) i j = pub_A L v aes seedA i j.
Proof.
  intros Hi Hj. unfold gen, pub_A. destruct aes; unfold genAES128, genSHAKE128; dims;
    rewrite at_build by assumption; reflexivity.
Qed.

Lemma number_packed v n1 n2 M i j : is_mat n1 n2 M -> ((n1 * (n2 * dbits v)) mod 8 = 0)%nat ->
  (i < n1)%nat -> (j < n2)%nat -> 0 <= at_ M i j < modulus v ->
  number_at (dbits v) (packed (PV v) M) (i * n2 + j) = at_ M i j.
Proof.
  intros HM H8 Hi Hj HR. rewrite <- e_D, <- unpacked_number.
  pose proof (unpacked_packed (PV v) n1 n2 M HM) as E. rewrite e_D in E. specialize (E H8).
  pose proof (build_inj _ _ _ _ E i j Hi Hj) as E'. cbv beta in E'. rewrite E'. apply Z.mod_small. exact HR.
Qed.

Theorem public_key L v aes seed pk sk : good_lib L -> length seed = seedlen v -> is_bytes seed = true ->
  kem_keygen L (PV v) aes seed = Ok (pk, sk) ->
  let seedA := xof L v (skipn (seclen v + saltlen v) seed) 16 in
  exists b Sb,
    pk = seedA ++ b /\ length b = (dbits v * dim v)%nat /\ is_bytes b = true /\
    sk = firstn (seclen v) seed ++ pk ++ Sb ++ xof L v pk (seclen v) /\
    length Sb = (2 * (8 * dim v))%nat /\ is_bytes Sb = true /\
    forall i j, (i < dim v)%nat -> (j < 8)%nat ->
      stored_S v Sb i j = key_S L v seed i j /\
      number_at (dbits v) b (i * 8 + j) =
        (sigma (dim v) (fun k => pub_A L v aes seedA i k * key_S L v seed k j) + key_E L v seed i j) mod modulus v.
Proof.
  intros HL Hlen Hb HK seedA. pose proof (params_good v) as HG.
  destruct (keygen_main L v aes seed HL Hlen Hb) as (s & se & z & Sb & H). cbv zeta in H.
  destruct H as (Eseed & Hs & Hse & Hz & F1 & F2 & F3 & Bs & HA & Hbl & HSb & BSb & HS & HK').
  subst seedA. rewrite <- F3. set (seedA := xof L v z 16) in *.
  set (b := packed (PV v) (k_B L (PV v) aes se seedA)) in *.
  rewrite HK' in HK.
  assert (Ep : pk = seedA ++ b) by congruence.
  assert (Es : sk = s ++ (seedA ++ b) ++ Sb ++ xof L v (seedA ++ b) (seclen v)) by congruence.
  exists b, Sb. split; [exact Ep|]. split; [exact Hbl|]. split; [apply packed_bytes|].
  split; [rewrite Ep, <- F1; exact Es|]. split; [exact HSb|]. split; [exact BSb|].
  assert (ES : forall i j, (i < dim v)%nat -> (j < 8)%nat -> at_ (Mtr 8 (dim v) (k_St L (PV v) se)) i j = key_S L v seed i j).
  { intros i j Hi Hj. unfold Mtr. rewrite at_build by assumption. unfold k_St, drawn_mat. dims.
    rewrite at_build by assumption. unfold key_S, key_stream, k_rb. dims. rewrite <- F2. do 2 f_equal. }
  intros i j Hi Hj. split.
  - rewrite <- ES by assumption. rewrite <- HS. unfold d_S, Mtr. rewrite e_n.
    rewrite at_build by assumption. rewrite at_build by assumption. reflexivity.
  - unfold b. assert (HM : is_mat (dim v) 8 (k_B L (PV v) aes se seedA)) by (unfold k_B; rewrite e_n; apply build_mat).
    assert (Eat : at_ (k_B L (PV v) aes se seedA) i j =
      (sigma (dim v) (fun k => pub_A L v aes seedA i k * key_S L v seed k j) + key_E L v seed i j) mod modulus v).
    { unfold k_B. rewrite at_Madd by (rewrite ?e_n; assumption). rewrite at_Mmul by (rewrite ?e_n; assumption).
      rewrite Zplus_mod_idemp_l, e_q. f_equal. f_equal.
      - rewrite e_n. apply sigma_ext. intros k Hk. rewrite gen_pub_A, ES by assumption. reflexivity.
      - unfold k_E, drawn_mat. dims. rewrite at_build by assumption. unfold key_E, key_stream, k_rb. dims. rewrite <- F2.
        do 2 f_equal. lia. }
    rewrite (number_packed v (dim v) 8).
    + exact Eat.
    + exact HM.
    + replace (dim v * (8 * dbits v))%nat with (dim v * dbits v * 8)%nat by ring. apply Nat.mod_mul. lia.
    + assumption.
    + assumption.
    + rewrite Eat. apply Z.mod_pos_bound, pow2_pos.
Qed.

Theorem ciphertext L v aes pk mu salt ct ss : good_lib L -> length pk = pklen v -> is_bytes pk = true ->
  length mu = seclen v -> length salt = saltlen v ->
  kem_encaps L (PV v) aes pk (mu ++ salt) = Ok (ct, ss) ->
  exists c1 c2,
    ct = c1 ++ c2 ++ salt /\ length c1 = (dbits v * dim v)%nat /\ length c2 = (dbits v * 8)%nat /\
    is_bytes c1 = true /\ is_bytes c2 = true /\
    ss = xof L v (ct ++ skipn (saltlen v) (seedSE_k L v pk mu salt)) (seclen v) /\
    (forall i j, (i < 8)%nat -> (j < dim v)%nat ->
       number_at (dbits v) c1 (i * dim v + j) =
       (sigma (dim v) (fun k => enc_S L v pk mu salt i k * pub_A L v aes (firstn 16 pk) k j)
        + enc_E L v pk mu salt i j) mod modulus v) /\
    (forall i j, (i < 8)%nat -> (j < 8)%nat ->
       number_at (dbits v) c2 (i * 8 + j) =
       (sigma (dim v) (fun k => enc_S L v pk mu salt i k * number_at (dbits v) (skipn 16 pk) (k * 8 + j))
        + enc_E2 L v pk mu salt i j
        + group_at (mbits v) mu (i * 8 + j) * 2 ^ Z.of_nat (dbits v - mbits v)) mod modulus v).
Proof.
  intros HL Hpk Bpk Hmu Hsalt HE. pose proof (params_good v) as HG.
  destruct (encaps_main L v aes pk mu salt HL Hpk Hmu Hsalt) as (HE' & HC). cbv zeta in HE', HC.
  set (seedA := firstn 16 pk) in *. set (b := skipn 16 pk) in *. set (pkh := xof L v pk (seclen v)) in *.
  set (M1 := e_Bp L (PV v) aes seedA pkh mu salt) in *. set (M2 := e_C L (PV v) b pkh mu salt) in *.
  rewrite HE' in HE.
  assert (Ect : ct = packed (PV v) M1 ++ packed (PV v) M2 ++ salt) by congruence.
  assert (Ess : ss = xof L v ((packed (PV v) M1 ++ packed (PV v) M2 ++ salt) ++ e_k L (PV v) pkh mu salt) (seclen v)) by congruence.
  exists (packed (PV v) M1), (packed (PV v) M2).
  split; [exact Ect|].
  split. { destruct (pack_8n (PV v) M1 ltac:(apply build_mat)) as (_ & ->). dims. reflexivity. }
  split. { destruct (pack_88 (PV v) M2 ltac:(apply build_mat)) as (_ & ->). dims. reflexivity. }
  split; [apply packed_bytes|]. split; [apply packed_bytes|].
  split.
  { rewrite Ess, <- Ect. do 2 f_equal. unfold e_k, e_sk. dims. fold (seedSE_k L v pk mu salt).
    unfold slice. replace (saltlen v + seclen v - saltlen v)%nat with (seclen v) by lia.
    apply firstn_all2. rewrite skipn_length. unfold seedSE_k. rewrite <- e_sh, (sh_length L (PV v) HL). lia. }
  assert (ERB : e_rb L (PV v) pkh mu salt = enc_stream L v pk mu salt) by apply e_rb_stream.
  assert (ESp : forall i k, (i < 8)%nat -> (k < dim v)%nat ->
    at_ (drawn_mat (PV v) (e_rb L (PV v) pkh mu salt) 0 8 (p_n (PV v))) i k = enc_S L v pk mu salt i k).
  { intros i k Hi Hk. rewrite ERB. unfold drawn_mat. dims. rewrite at_build by assumption. reflexivity. }
  split.
  - intros i j Hi Hj.
    assert (Eat : at_ M1 i j = (sigma (dim v) (fun k => enc_S L v pk mu salt i k * pub_A L v aes seedA k j)
        + enc_E L v pk mu salt i j) mod modulus v).
    { unfold M1, e_Bp. rewrite at_Madd by (rewrite ?e_n; assumption). rewrite at_Mmul by (rewrite ?e_n; assumption).
      rewrite Zplus_mod_idemp_l, e_q. f_equal. f_equal.
      - rewrite e_n. apply sigma_ext. intros k Hk. rewrite <- ESp by assumption. rewrite e_n, gen_pub_A by assumption. reflexivity.
      - rewrite ERB. unfold drawn_mat. dims. rewrite at_build by assumption. unfold enc_E. do 2 f_equal. lia. }
    rewrite (number_packed v 8 (dim v)).
    + exact Eat.
    + unfold M1, e_Bp. rewrite e_n. apply build_mat.
    + replace (8 * (dim v * dbits v))%nat with (dim v * dbits v * 8)%nat by ring. apply Nat.mod_mul. lia.
    + assumption.
    + assumption.
    + rewrite Eat. apply Z.mod_pos_bound, pow2_pos.
  - intros i j Hi Hj.
    assert (Eat : at_ M2 i j = (sigma (dim v) (fun k => enc_S L v pk mu salt i k * number_at (dbits v) b (k * 8 + j))
        + enc_E2 L v pk mu salt i j
        + group_at (mbits v) mu (i * 8 + j) * 2 ^ Z.of_nat (dbits v - mbits v)) mod modulus v).
    { unfold M2, e_C. rewrite at_Madd by assumption. rewrite at_Madd by assumption. rewrite at_Mmul by assumption.
      rewrite Zplus_mod_idemp_l. rewrite <- Z.add_assoc, Zplus_mod_idemp_l, Z.add_assoc, e_q. f_equal. f_equal; [f_equal|].
      - rewrite e_n. apply sigma_ext. intros k Hk. rewrite <- ESp by assumption. rewrite e_n. f_equal.
        unfold unpacked. rewrite at_build by assumption. rewrite unpacked_number, e_D. reflexivity.
      - rewrite ERB. unfold drawn_mat. dims. rewrite at_build by assumption. unfold enc_E2. do 2 f_equal. lia.
      - unfold Menc. rewrite at_build by assumption. unfold step. dims. unfold group. rewrite e_B. reflexivity. }
    rewrite (number_packed v 8 8).
    + exact Eat.
    + apply build_mat.
    + replace (8 * (8 * dbits v))%nat with (8 * dbits v * 8)%nat by ring. apply Nat.mod_mul. lia.
    + assumption.
    + assumption.
    + rewrite Eat. apply Z.mod_pos_bound, pow2_pos.
Qed.

(** * Key objects *)

Lemma seed_size_v v : frodo_seed_size v = seedlen v.
Proof. destruct v; reflexivity. Qed.

Lemma pk_Z v : Z.to_nat (p_pk (PV v)) = pklen v.
Proof. rewrite (g_pk _ (params_good v)). rewrite Nat2Z.id, e_A, e_D, e_n. reflexivity. Qed.

Lemma ct_Z v : p_ct (PV v) = Z.of_nat (ctlen v).
Proof. rewrite (g_ct _ (params_good v)). dims. reflexivity. Qed.

Theorem key_object L v aes seed : good_lib L -> length seed = seedlen v -> is_bytes seed = true ->
  exists pk sk,
    kem_keygen L (PV v) aes seed = Ok (pk, sk) /\
    frodo_from_private_bytes L v aes seed = Ok (mk_frodo_key sk (Some pk) (Some seed)) /\
    frodo_from_seed L v aes seed = Ok (mk_frodo_key sk (Some pk) (Some seed)) /\
    exists key, frodo_from_private_bytes L v aes sk = Ok key /\ fk_private key = sk /\
      frodo_public_key v key = pk.
Proof.
  intros HL Hlen Hb.
  destruct (keygen_main L v aes seed HL Hlen Hb) as (s & se & z & Sb & H). cbv zeta in H.
  set (seedA := xof L v z 16) in *. set (b := packed (PV v) (k_B L (PV v) aes se seedA)) in *.
  destruct H as (_ & Hs & _ & _ & _ & _ & _ & _ & HA & Hbl & HSb & _ & _ & HK).
  set (pk := seedA ++ b) in *. set (sk := s ++ pk ++ Sb ++ xof L v pk (seclen v)) in *.
  assert (Hpk : length pk = pklen v) by (unfold pk, pklen; rewrite app_length; lia).
  exists pk, sk. split; [exact HK|].
  assert (HF : frodo_from_seed L v aes seed = Ok (mk_frodo_key sk (Some pk) (Some seed))).
  { unfold frodo_from_seed. rewrite seed_size_v, Hlen, Nat.eqb_refl. cbn [guard bind]. rewrite HK. reflexivity. }
  split; [|split; [exact HF|]].
  - unfold frodo_from_private_bytes. rewrite seed_size_v, Hlen, Nat.eqb_refl. exact HF.
  - exists (mk_frodo_key sk None None). split.
    + unfold frodo_from_private_bytes. replace (Nat.eqb (frodo_seed_size v) (length sk)) with false; [reflexivity|].
      symmetry. apply Nat.eqb_neq. rewrite seed_size_v. unfold sk. rewrite !app_length, Hpk.
      unfold seedlen, pklen.
      assert (E : (saltlen v < dbits v * dim v)%nat) by (apply Nat.ltb_lt; destruct v; reflexivity).
      lia.
    + split; [reflexivity|]. unfold frodo_public_key. cbn [fk_public fk_private]. rewrite e_s, pk_Z.
      unfold sk. apply slice_mid; assumption.
Qed.

Theorem decaps_object L v aes key ct :
  (length ct <> ctlen v -> frodo_decaps L v aes key ct = Err EValueError) /\
  (length ct = ctlen v -> length (fk_private key) <> sklen v -> frodo_decaps L v aes key ct = Err EAssertion) /\
  (forall ss, length ct = ctlen v -> kem_decaps L (PV v) aes (fk_private key) ct = Ok ss ->
     frodo_decaps L v aes key ct = Ok ss).
Proof.
  unfold frodo_decaps. rewrite ct_Z. split; [|split].
  - intros H. replace (Z.of_nat (length ct) =? Z.of_nat (ctlen v)) with false; [reflexivity|].
    symmetry. apply Z.eqb_neq. lia.
  - intros -> H. rewrite Z.eqb_refl. cbn [guard bind]. rewrite decaps_length by (right; exact H). reflexivity.
  - intros ss -> ->. rewrite Z.eqb_refl. reflexivity.
Qed.
