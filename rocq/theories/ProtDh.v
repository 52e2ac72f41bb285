(** Proofs about derived keys and the DH-based MAC (properties C89, C95). *)
From Coq Require Import String Ascii Lia.
From Verif Require Import Prelude PreludeFacts PyStr PyStrProofs CompLoadModel HdrModel ProtTab ProtModel ProtSpec ProtMac ProtMacMsg.
Open Scope string_scope.
Open Scope Z_scope.
Local Notation length := List.length.

(** ** Digest sizes *)

Lemma inst_allowed : forall n h, hash_name_to_instance n = Ok h -> lookup h ALLOWED_HASH_TYPES = Some (digest_size h).
Proof.
  intros n h H. unfold hash_name_to_instance in H. apply bind_inv in H as (x & _ & H).
  apply bind_inv in H as ([] & G & H). apply guard_true in G. inversion H; subst. unfold has, digest_size in *.
  destruct (lookup h ALLOWED_HASH_TYPES); [reflexivity|discriminate].
Qed.
Lemma digest_range : forall h d, lookup h ALLOWED_HASH_TYPES = Some d -> 20 <= d <= 64.
Proof. intros h d H. apply lookup_In in H. cbv [ALLOWED_HASH_TYPES In] in H. enum H; lia. Qed.

(** ** ANSI X9.63 *)

Lemma stream_snoc : forall L h v2 ss other k,
  kdf_stream L h v2 ss other (S k) = (kdf_stream L h v2 ss other k ++ kdf_block L h v2 ss other (Z.of_nat (S k)))%list.
Proof.
  intros. unfold kdf_stream. rewrite seq_S, map_app, concat_app. cbn [List.map List.concat]. rewrite app_nil_r.
  now replace (1 + k)%nat with (S k) by lia.
Qed.
Lemma stream_len : forall L h v2 ss other d k, prim_ok L -> lookup h ALLOWED_HASH_TYPES = Some d ->
  Z.of_nat (length (kdf_stream L h v2 ss other k)) = Z.of_nat k * d.
Proof.
  intros L h v2 ss other d k P H. induction k as [|k IH]; [reflexivity|].
  rewrite stream_snoc, app_length, Nat2Z.inj_add, IH. unfold kdf_block. rewrite (pm_hash _ P _ _ _ H). lia.
Qed.
Lemma stream_prefix : forall L h v2 ss other k j, (k <= j)%nat ->
  exists r, kdf_stream L h v2 ss other j = (kdf_stream L h v2 ss other k ++ r)%list.
Proof.
  intros L h v2 ss other k j H. induction j as [|j IH].
  - assert (k = O) by lia. subst. exists []. now rewrite app_nil_r.
  - destruct (Nat.eq_dec k (S j)) as [->|N]; [exists []; now rewrite app_nil_r|].
    destruct IH as (r & E); [lia|]. rewrite stream_snoc, E, <- app_assoc. eauto.
Qed.
Lemma ansi_loop_spec : forall L h v2 ss other d want, prim_ok L -> lookup h ALLOWED_HASH_TYPES = Some d ->
  0 <= want <= 4294967295 * d ->
  forall fuel k, want - Z.of_nat k * d <= Z.of_nat fuel ->
  ansi_loop L fuel h ss other v2 want (Z.of_nat k + 1) (kdf_stream L h v2 ss other k) =
  Ok (kdf_stream L h v2 ss other (Nat.max k (blocks_for want d))).
Proof.
  intros L h v2 ss other d want P H W. pose proof (digest_range _ _ H) as RD.
  assert (B : forall k, Z.of_nat k * d < want <-> (k < blocks_for want d)%nat).
  { intro k. unfold blocks_for. split; intro X.
    - apply Nat2Z.inj_lt. rewrite Z2Nat.id by (apply Z.div_pos; lia).
      apply Z.lt_le_trans with (Z.of_nat k + 1); [lia|]. apply Z.div_le_lower_bound; [lia|]. nia.
    - apply Nat2Z.inj_lt in X. rewrite Z2Nat.id in X by (apply Z.div_pos; lia).
      assert (Z.of_nat k + 1 <= (want + d - 1) / d) as Y by lia.
      pose proof (Z.mul_div_le (want + d - 1) d ltac:(lia)). nia. }
  induction fuel as [|fuel IH]; intros k F.
  - assert (X : ~ Z.of_nat k * d < want) by lia.
    cbn [ansi_loop]. rewrite (stream_len L h v2 ss other d k P H).
    destruct (Z.ltb_spec (Z.of_nat k * d) want); [contradiction|].
    rewrite Nat.max_l; [reflexivity|]. apply Nat.nlt_ge. intro Y. now apply B in Y.
  - cbn [ansi_loop]. rewrite (stream_len L h v2 ss other d k P H).
    destruct (Z.ltb_spec (Z.of_nat k * d) want) as [Y|Y].
    + unfold counter_bytes. destruct (Z.ltb_spec (Z.of_nat k + 1) 4294967296) as [Z1|Z1]; [|nia].
      cbn [guard bind]. 
      assert (E : (kdf_stream L h v2 ss other k ++
                   l_hash L h (if v2 then (ss ++ be32 (Z.of_nat k + 1) ++ other)%list
                               else (be32 (Z.of_nat k + 1) ++ ss ++ other)%list))%list
                  = kdf_stream L h v2 ss other (S k)).
      { rewrite stream_snoc. unfold kdf_block. replace (Z.of_nat (S k)) with (Z.of_nat k + 1) by lia. reflexivity. }
      unfold be32 in E. rewrite E.
      replace (Z.of_nat k + 1 + 1) with (Z.of_nat (S k) + 1) by lia.
      rewrite IH by nia. do 2 f_equal. apply B in Y. lia.
    + rewrite Nat.max_l; [reflexivity|]. apply Nat.nlt_ge. intro Z1. apply B in Z1. lia.
Qed.
Theorem ansi_exact : forall L ss want other name v2 h d, prim_ok L -> hash_name_to_instance name = Ok h ->
  lookup h ALLOWED_HASH_TYPES = Some d -> 0 <= want <= 4294967295 * d ->
  exists r, compute_ansi_x9_63_kdf L ss want other name v2 = Ok r /\
    r = firstn (Z.to_nat want) (kdf_stream L h v2 ss other (blocks_for want d)) /\ Z.of_nat (length r) = want.
Proof.
  intros L ss want other name v2 h d P N H W. pose proof (digest_range _ _ H) as RD.
  unfold compute_ansi_x9_63_kdf. rewrite N. cbn [bind].
  pose proof (ansi_loop_spec L h v2 ss other d want P H W (Z.to_nat want) O) as X.
  change (kdf_stream L h v2 ss other 0) with (@nil Z) in X. change (Z.of_nat 0 + 1) with 1 in X.
  rewrite X by lia. cbn [bind]. eexists; split; [reflexivity|]. cbn [Nat.max]. split; [reflexivity|].
  rewrite firstn_length. pose proof (stream_len L h v2 ss other d (blocks_for want d) P H) as E.
  unfold blocks_for in *. rewrite Z2Nat.id in E by (apply Z.div_pos; lia).
  pose proof (Z.mul_succ_div_gt (want + d - 1) d ltac:(lia)). nia.
Qed.
Theorem ansi_prefix : forall L ss w1 w2 other name v2 r1 r2 h d, prim_ok L -> hash_name_to_instance name = Ok h ->
  lookup h ALLOWED_HASH_TYPES = Some d -> 0 <= w1 <= w2 -> w2 <= 4294967295 * d ->
  compute_ansi_x9_63_kdf L ss w1 other name v2 = Ok r1 -> compute_ansi_x9_63_kdf L ss w2 other name v2 = Ok r2 ->
  r1 = firstn (Z.to_nat w1) r2.
Proof.
  intros L ss w1 w2 other name v2 r1 r2 h d P N H W1 W2 R1 R2. pose proof (digest_range _ _ H) as RD.
  destruct (ansi_exact L ss w1 other name v2 h d P N H) as (x1 & A1 & B1 & _); [lia|].
  destruct (ansi_exact L ss w2 other name v2 h d P N H) as (x2 & A2 & B2 & _); [lia|].
  rewrite R1 in A1; rewrite R2 in A2; inversion A1; inversion A2; subst r1 r2. rewrite B1, B2.
  rewrite firstn_firstn, Nat.min_l by lia.
  destruct (stream_prefix L h v2 ss other (blocks_for w1 d) (blocks_for w2 d)) as (r & E).
  { unfold blocks_for. apply Z2Nat.inj_le; [apply Z.div_pos; lia|apply Z.div_pos; lia|]. apply Z.div_le_mono; lia. }
  rewrite E, firstn_app.
  assert (Z : (Z.to_nat w1 - length (kdf_stream L h v2 ss other (blocks_for w1 d)) = 0)%nat).
  { pose proof (stream_len L h v2 ss other d (blocks_for w1 d) P H) as E1.
    unfold blocks_for in *. rewrite Z2Nat.id in E1 by (apply Z.div_pos; lia).
    pose proof (Z.mul_succ_div_gt (w1 + d - 1) d ltac:(lia)). nia. }
  rewrite Z. cbn [firstn]. now rewrite app_nil_r.
Qed.
(** Beyond the last counter nothing is derived. *)
Lemma ansi_loop_over : forall L h v2 ss other d want, prim_ok L -> lookup h ALLOWED_HASH_TYPES = Some d ->
  4294967295 * d < want -> forall fuel k acc, Z.of_nat (length acc) = k * d -> 0 <= k <= 4294967295 ->
  4294967295 - k < Z.of_nat fuel ->
  ansi_loop L fuel h ss other v2 want (k + 1) acc = Err EOverflow.
Proof.
  intros L h v2 ss other d want P H W. pose proof (digest_range _ _ H) as RD.
  induction fuel as [|fuel IH]; intros k acc LA K F; [lia|].
  cbn [ansi_loop]. rewrite LA. destruct (Z.ltb_spec (k * d) want); [|nia].
  unfold counter_bytes. destruct (Z.ltb_spec (k + 1) 4294967296); cbn [guard bind]; [|reflexivity].
  apply IH; [|lia|lia]. rewrite app_length, Nat2Z.inj_add, LA, (pm_hash _ P _ _ _ H). lia.
Qed.
Theorem ansi_overflow : forall L ss want other name v2 h d, prim_ok L -> hash_name_to_instance name = Ok h ->
  lookup h ALLOWED_HASH_TYPES = Some d -> 4294967295 * d < want ->
  compute_ansi_x9_63_kdf L ss want other name v2 = Err EOverflow.
Proof.
  intros L ss want other name v2 h d P N H W. pose proof (digest_range _ _ H) as RD.
  unfold compute_ansi_x9_63_kdf. rewrite N. cbn [bind]. 
  pose proof (ansi_loop_over L h v2 ss other d want P H W (Z.to_nat want) 0 [] eq_refl ltac:(lia) ltac:(lia)) as X.
  change (0 + 1) with 1 in X. now rewrite X.
Qed.

(** ** Keys of the DH-based MAC *)

Lemma derive_rounds_spec : forall L owf h base, hash_name_to_instance owf = Ok h -> forall n i, (0 <= i) ->
  derive_rounds L n (Z.of_nat (Z.to_nat i)) owf base =
  Ok (List.concat (List.map (fun j => l_hash L h (dec_ascii (Z.of_nat j) ++ base)%list) (seq (Z.to_nat i) n))).
Proof.
  intros L owf h base H n; induction n as [|n IH]; intros i I; [reflexivity|].
  cbn [derive_rounds seq List.map List.concat]. unfold compute_hash. rewrite H. cbn [bind].
  replace (Z.of_nat (Z.to_nat i) + 1) with (Z.of_nat (Z.to_nat (i + 1))) by lia.
  rewrite IH by lia. cbn [bind]. now replace (Z.to_nat (i + 1)) with (S (Z.to_nat i)) by lia.
Qed.
Theorem derive_spec : forall L base want owf h, hash_name_to_instance owf = Ok h -> base <> [] -> 0 <= want ->
  dh_based_mac_derive_key L base want owf =
  Ok (firstn (Z.to_nat want)
        (if want <=? Z.of_nat (length base) then base
         else base_stream L h base (rounds_for want (Z.of_nat (length base))))).
Proof.
  intros L base want owf h H NB W. unfold dh_based_mac_derive_key.
  destruct (Z.leb_spec want (Z.of_nat (length base))); [reflexivity|].
  destruct (Z.eqb_spec (Z.of_nat (length base)) 0) as [E|E]; [destruct base; [congruence|discriminate]|].
  pose proof (derive_rounds_spec L owf h base H (Z.to_nat ((want + Z.of_nat (length base) - 1) / Z.of_nat (length base) - 1)) 1 ltac:(lia)) as D.
  change (Z.of_nat (Z.to_nat 1)) with 1 in D. change (Z.to_nat 1) with 1%nat in D. rewrite D. reflexivity.
Qed.
Lemma concat_len : forall L h d (f : nat -> bytes) l, prim_ok L -> lookup h ALLOWED_HASH_TYPES = Some d ->
  Z.of_nat (length (List.concat (List.map (fun j => l_hash L h (f j)) l))) = Z.of_nat (length l) * d.
Proof.
  intros L h d f l P H. induction l as [|x l IH]; [reflexivity|].
  cbn [List.map List.concat]. rewrite app_length, Nat2Z.inj_add, IH, (pm_hash _ P _ _ _ H). cbn [length]. lia.
Qed.
(** The length of the derived key: as many bytes as asked for, or all there are. *)
Theorem derive_length : forall L base want owf h d r, prim_ok L -> hash_name_to_instance owf = Ok h ->
  lookup h ALLOWED_HASH_TYPES = Some d -> base <> [] -> 0 <= want ->
  dh_based_mac_derive_key L base want owf = Ok r ->
  Z.of_nat (length r) =
  Z.min want (Z.of_nat (length base) + Z.max 0 ((want + Z.of_nat (length base) - 1) / Z.of_nat (length base) - 1) * d).
Proof.
  intros L base want owf h d r P H HD NB W E. rewrite (derive_spec _ _ _ _ _ H NB W) in E. inversion E; subst r; clear E.
  pose proof (digest_range _ _ HD) as RD.
  assert (0 < Z.of_nat (length base)) as PB by (destruct base; [congruence|cbn; lia]).
  set (n := Z.of_nat (length base)) in *. rewrite firstn_length.
  destruct (Z.leb_spec want n) as [Q|Q].
  - assert ((want + n - 1) / n < 2) by (apply Z.div_lt_upper_bound; lia).
    rewrite Z.max_l by lia. unfold n in *. lia.
  - unfold base_stream. rewrite app_length.
    pose proof (concat_len L h d (fun j => (dec_ascii (Z.of_nat j) ++ base)%list) (seq 1 (rounds_for want n)) P HD) as C.
    rewrite seq_length in C. unfold rounds_for in *.
    assert (2 <= (want + n - 1) / n) by (apply Z.div_le_lower_bound; lia).
    rewrite Z2Nat.id in C by lia. unfold n in *. lia.
Qed.
Corollary derive_length_32 : forall L base want owf h r, prim_ok L -> hash_name_to_instance owf = Ok h ->
  base <> [] -> 0 <= want <= 40 -> dh_based_mac_derive_key L base want owf = Ok r -> Z.of_nat (length r) = want.
Proof.
  intros L base want owf h r P H NB W E. pose proof (inst_allowed _ _ H) as HD. pose proof (digest_range _ _ HD) as RD.
  rewrite (derive_length _ _ _ _ _ _ _ P H HD NB (proj1 W) E).
  assert (0 < Z.of_nat (length base)) as PB by (destruct base; [congruence|cbn; lia]).
  set (n := Z.of_nat (length base)) in *. apply Z.min_l.
  destruct (Z_le_gt_dec want n); [nia|].
  pose proof (Z.mul_succ_div_gt (want + n - 1) n ltac:(lia)) as X.
  assert (2 <= (want + n - 1) / n) by (apply Z.div_le_lower_bound; lia).
  set (q := (want + n - 1) / n) in *. rewrite Z.max_r by lia.
  destruct (Z_le_gt_dec n (digest_size h)); [nia|]. 
  assert (want - n <= 20) by lia. nia.
Qed.
Corollary derive_length_digest : forall L base want owf h r, prim_ok L -> hash_name_to_instance owf = Ok h ->
  base <> [] -> 0 <= want -> Z.of_nat (length base) <= digest_size h ->
  dh_based_mac_derive_key L base want owf = Ok r -> Z.of_nat (length r) = want.
Proof.
  intros L base want owf h r P H NB W B E. pose proof (inst_allowed _ _ H) as HD. pose proof (digest_range _ _ HD) as RD.
  rewrite (derive_length _ _ _ _ _ _ _ P H HD NB W E).
  assert (0 < Z.of_nat (length base)) as PB by (destruct base; [congruence|cbn; lia]).
  set (n := Z.of_nat (length base)) in *. apply Z.min_l.
  pose proof (Z.mul_succ_div_gt (want + n - 1) n ltac:(lia)) as X. nia.
Qed.

(** ** The DH-based MAC *)

Lemma load_dhbm : forall L p e o m,
  load sel_dhbm (l_dec_dhbm L) (Some e) p = Ok (o, m) <-> seen (l_dec_dhbm L) p (PDhbm o m) (o, m).
Proof. seen_tac. Qed.
Lemma load_gcm_lax : forall L p n, load sel_gcm (l_dec_gcm L) None p = Ok n <-> seen_lax (l_dec_gcm L) p (PGcm n) n.
Proof.
  intros L p n; unfold load, seen_lax; split.
  - destruct p; cbn [sel_gcm]; try discriminate.
    + destruct (l_dec_gcm L b) as [[x [|y r]]|] eqn:E; intro H; inversion H; subst; right; eauto.
    + destruct (l_dec_gcm L b) as [[x [|y r]]|] eqn:E; intro H; inversion H; subst; right; eauto.
    + intro H; inversion H; now left.
  - intros [->|(b & r & [->| ->] & E)]; cbn [sel_gcm]; [reflexivity|rewrite E; destruct r; reflexivity..].
Qed.
Lemma sha_lookup : forall o h, lookup o SHA_OID_2_NAME = Some h <-> In (o, h) sha1_sha2.
Proof.
  intros o h; split; intro H; [now apply lookup_In in H|]. cbv [sha1_sha2 In] in H. enum H; reflexivity.
Qed.
Lemma sha_inst : forall o h, In (o, h) sha1_sha2 -> hash_name_to_instance h = Ok h.
Proof. intros o h H. cbv [sha1_sha2 In] in H. enum H; reflexivity. Qed.
Lemma gmac_key_spec : forall o n, In (o, n) gmac_keys <->
  exists name, lookup o AES_GMAC_OID_2_NAME = Some name /\ get_aes_length name = Ok n.
Proof.
  intros o n; split.
  - intro H. cbv [gmac_keys In] in H. enum H; eexists; split; reflexivity.
  - intros (name & E & G). apply lookup_In in E. cbv [AES_GMAC_OID_2_NAME In] in E.
    enum E; vm_compute in G; inversion G; subst; cbv [gmac_keys In]; tauto.
Qed.
Lemma derive_secret : forall L ss n ho k, hash_name_to_instance ho = Ok ho -> 0 < n ->
  (dh_based_mac_derive_key L ss n ho = Ok k <-> ss <> [] /\ k = secret_key L ho ss n).
Proof.
  intros L ss n ho k H N. split.
  - intro E. assert (NE : ss <> []).
    { intros ->. unfold dh_based_mac_derive_key in E. cbn [length] in E.
      destruct (Z.leb_spec n (Z.of_nat 0)); [lia|discriminate]. }
    split; auto. rewrite (derive_spec _ _ _ _ _ H NE) in E by lia. inversion E. reflexivity.
  - intros (NE & ->). rewrite (derive_spec _ _ _ _ _ H NE) by lia. reflexivity.
Qed.
Theorem dh_exact : forall L p ss data v,
  compute_dh_based_mac_from_alg_id L ss (Alg "id_DHBasedMac" p) data = Ok v <->
  dh_value L (Alg "id_DHBasedMac" p) ss data v.
Proof.
  intros L p ss data v; unfold compute_dh_based_mac_from_alg_id; cbn [a_params]; split.
  - intro H. apply bind_inv in H as ((owf & mac) & S & H). apply load_dhbm in S.
    destruct (lookup (a_oid owf) SHA_OID_2_NAME) as [ho|] eqn:E; [|discriminate]. apply sha_lookup in E.
    pose proof (sha_inst _ _ E) as I. unfold compute_hash in H. rewrite I in H. cbn [bind] in H.
    destruct (hmac_hash_cases (a_oid mac)) as [M|(hm & M)]; rewrite M in H.
    + destruct (lookup (a_oid mac) AES_GMAC_OID_2_NAME) as [name|] eqn:G.
      * apply bind_inv in H as (n & N & H). apply bind_inv in H as (k & K & H). apply bind_inv in H as (nonce & C & H).
        assert (GK : In (a_oid mac, n) gmac_keys) by (apply gmac_key_spec; eauto).
        apply derive_secret in K as (NE & ->); [|exact I|cbv [gmac_keys In] in GK; enum GK; lia].
        apply load_gcm_lax in C. exact (DV_gmac L p owf mac ho n nonce ss data v S E GK C NE H).
      * destruct (has (a_oid mac) KMAC_OID_2_NAME) eqn:K; [|discriminate].
        apply bind_inv in H as (k & D & H). apply derive_secret in D as (NE & ->); [|exact I|lia].
        destruct (proj1 (kmac_spec L mac data _ v) (conj K H)) as (h & X & Y & Q). destruct mac as [mo mp].
        cbn in X, Y; subst mp. exact (DV_kmac L p owf mo ho h ss data v S E X NE Q).
    + cbn [bind] in H. apply hmac_hash_spec in M. rewrite (hmac_ok _ _ _ _ _ M) in H. inversion H; subst.
      exact (DV_hmac L p owf mac ho hm ss data S E M).
  - intro H. inversion H; subst.
    + match goal with S : seen _ _ _ _ |- _ => apply load_dhbm with (e := EBadAsn1Data) in S; rewrite S end. cbn [bind].
      match goal with E : In _ sha1_sha2 |- _ => rewrite (proj2 (sha_lookup _ _) E); pose proof (sha_inst _ _ E) as I end.
      unfold compute_hash. rewrite I. cbn [bind].
      match goal with M : In _ hmacs |- _ => rewrite (proj2 (hmac_hash_spec _ _) M); cbn [bind]; apply (hmac_ok _ _ _ _ _ M) end.
    + match goal with S : seen _ _ _ _ |- _ => apply load_dhbm with (e := EBadAsn1Data) in S; rewrite S end. cbn [bind].
      match goal with E : In _ sha1_sha2 |- _ => rewrite (proj2 (sha_lookup _ _) E); pose proof (sha_inst _ _ E) as I end.
      unfold compute_hash. rewrite I. cbn [bind].
      match goal with G : In _ gmac_keys |- _ => destruct (proj1 (gmac_key_spec _ _) G) as (name & G1 & G2); rename G into GK end.
      assert (MN : hmac_hash (a_oid mac) = None).
      { cbv [gmac_keys In] in GK. destruct GK as [GK|[GK|[GK|[]]]]; injection GK as <- _; reflexivity. }
      rewrite MN, G1, G2. cbn [bind].
      assert (NP : 0 < n) by (cbv [gmac_keys In] in GK; destruct GK as [GK|[GK|[GK|[]]]]; injection GK as _ <-; lia).
      assert (NE : ss <> []) by assumption.
      rewrite (proj2 (derive_secret L ss n ho _ I NP) (conj NE eq_refl)). cbn [bind].
      match goal with C : seen_lax _ _ _ _ |- _ => apply load_gcm_lax in C; rewrite C end. cbn [bind]. assumption.
    + match goal with S : seen _ _ _ _ |- _ => apply load_dhbm with (e := EBadAsn1Data) in S; rewrite S end. cbn [bind].
      match goal with E : In _ sha1_sha2 |- _ => rewrite (proj2 (sha_lookup _ _) E); pose proof (sha_inst _ _ E) as I end.
      unfold compute_hash. rewrite I. cbn [bind a_oid].
      match goal with G : In _ kmacs |- _ => rename G into GK end.
      assert (MN : hmac_hash mac = None /\ lookup mac AES_GMAC_OID_2_NAME = None).
      { destruct GK as [GK|[GK|[]]]; injection GK as <- _; split; reflexivity. }
      destruct MN as (-> & ->).
      destruct (proj2 (kmac_spec L (Alg mac PAbsent) data (secret_key L ho ss 32) v)) as (K1 & K2); [exists h; auto|].
      cbn [a_oid] in K1. rewrite K1.
      assert (NE : ss <> []) by assumption.
      rewrite (proj2 (derive_secret L ss 32 ho _ I eq_refl) (conj NE eq_refl)). exact K2.
Qed.

(** ** Messages *)

Inductive prepared_dh : algid -> Prop :=
| PD : forall ow mac, (exists o, mac = Alg o PAbsent) \/ (exists o n, mac = Alg o (PGcm n)) ->
    prepared_dh (Alg "id_DHBasedMac" (PDhbm (Alg ow (PRaw [5; 0])) mac)).
Lemma prep_gmac_form : forall rnd n nonce a, prepare_aes_gmac_prot_alg_id rnd n nonce = Ok a -> exists o x, a = Alg o (PGcm x).
Proof. intros rnd n nonce a H. unfold prepare_aes_gmac_prot_alg_id in H. destruct (lookup n AES_GMAC_NAME_2_OID); inversion H; eauto. Qed.
Lemma prep_kmac_form : forall n a, prepare_kmac_alg_id n = Ok a -> exists o, a = Alg o PAbsent.
Proof.
  intros n a H. unfold prepare_kmac_alg_id in H. destruct (String.eqb n "shake128"); [inversion H; eauto|].
  destruct (String.eqb n "shake256"); inversion H; eauto.
Qed.
Lemma prep_hmac_form : forall n a, prepare_hmac_alg_id n = Ok a -> exists o, a = Alg o PAbsent.
Proof. intros n a H. destruct (prep_hmac _ _ H) as (o & -> & _). eauto. Qed.
Lemma prepare_dh : forall rnd prot o a, prepare_prot_alg_id rnd prot o = Ok a -> protection_get prot = Ok PA_DH -> prepared_dh a.
Proof.
  intros rnd prot o a H G. unfold prepare_prot_alg_id in H. rewrite G in H. cbn [bind] in H.
  apply bind_inv in H as (nonce & _ & H). apply bind_inv in H as (p & P & H). inversion H; subst a; clear H.
  unfold prepare_dh_based_mac_params in P. apply bind_inv in P as (owf & W & P). apply bind_inv in P as (mac & M & P).
  inversion P; subst p; clear P. unfold prepare_sha_alg_id in W. apply bind_inv in W as (ow & _ & W). inversion W; subst owf.
  constructor. set (ma := dflt (o_mac o) "hmac") in M.
  destruct (String.eqb ma "hmac"); [left; eapply prep_hmac_form; eauto|].
  destruct (startswith "hmac" ma); [apply bind_inv in M as (n & _ & M); left; eapply prep_hmac_form; eauto|].
  destruct (startswith "aes" ma); [right; eapply prep_gmac_form; eauto|].
  destruct (String.eqb ma "kmac"); [left; eapply prep_kmac_form; eauto|].
  destruct (startswith "kmac" ma); [apply bind_inv in M as (n & _ & M); left; eapply prep_kmac_form; eauto|discriminate].
Qed.
Lemma dh_wire : forall L a ss data, codec_ok L -> prepared_dh a ->
  compute_dh_based_mac_from_alg_id L ss (wire_alg L a) data = compute_dh_based_mac_from_alg_id L ss a data.
Proof.
  intros L a ss data C P. destruct P as [ow mac F]. unfold wire_alg. cbn [a_oid a_params wire].
  unfold compute_dh_based_mac_from_alg_id. cbn [a_params].
  assert (W : wf_params L (PDhbm (Alg ow (PRaw [5; 0])) mac) = true).
  { cbn [wf_params wf_alg]. rewrite (proj2 (ck_null _ C)). destruct F as [(o & ->)|(o & n & ->)]; reflexivity. }
  assert (E : load sel_dhbm (l_dec_dhbm L) (Some EBadAsn1Data) (PRaw (l_enc L (PDhbm (Alg ow (PRaw [5; 0])) mac)))
              = Ok (Alg ow (PRaw [5; 0]), wire_alg L mac)).
  { unfold load. cbn [sel_dhbm]. rewrite (ck_dhbm _ C _ _ W). reflexivity. }
  rewrite E. change (load sel_dhbm (l_dec_dhbm L) (Some EBadAsn1Data) (PDhbm (Alg ow (PRaw [5; 0])) mac))
    with (Ok (Alg ow (PRaw [5; 0]), mac)). cbn [bind].
  destruct F as [(o & ->)|(o & n & ->)]; [reflexivity|].
  unfold wire_alg. cbn [a_oid a_params wire].
  assert (E2 : load sel_gcm (l_dec_gcm L) None (PRaw (l_enc L (PGcm n))) = Ok n).
  { unfold load. cbn [sel_gcm]. now rewrite (ck_gcm _ C). }
  rewrite E2. change (load sel_gcm (l_dec_gcm L) None (PGcm n)) with (Ok n).
  destruct (lookup ow SHA_OID_2_NAME) as [h|]; [|reflexivity]. destruct (compute_hash L h ss) as [dk|]; [|reflexivity].
  cbn [bind]. destruct (hmac_hash o) as [hr|]; [reflexivity|]. destruct (lookup o AES_GMAC_OID_2_NAME); [reflexivity|].
  destruct (has o KMAC_OID_2_NAME); reflexivity.
Qed.
Lemma symmetric_dh : forall L rnd p pw data lw,
  symmetric_mac L rnd (Alg "id_DHBasedMac" p) pw data lw = compute_dh_based_mac_from_alg_id L pw (Alg "id_DHBasedMac" p) data.
Proof. reflexivity. Qed.
Lemma verify_dh_eq : forall L rnd m w p v, h_alg (m_header m) = Some (Alg "id_DHBasedMac" p) -> m_prot m = Some v ->
  verify_pkimessage_protection L rnd m w = verify_dh_based_protection L rnd m (Alg "id_DHBasedMac" p) v w.
Proof.
  intros L rnd m w p v A V. unfold verify_pkimessage_protection. rewrite V, A. cbn [bind a_oid].
  destruct (v_lw w); [|reflexivity]. unfold get_protection_type_from_pkimessage. rewrite A. reflexivity.
Qed.
(** The secret both sides use. *)
Lemma verify_dh_secret : forall L rnd m w p v ss data,
  h_alg (m_header m) = Some (Alg "id_DHBasedMac" p) -> m_prot m = Some v -> part_of L m data ->
  (v_ss w = None -> v_key w <> None) ->
  dh_secret L (v_key w) (option_map PeerKey (v_public w)) (m_certs m) (v_ss w) = Ok ss ->
  verify_pkimessage_protection L rnd m w =
  (let! e := compute_dh_based_mac_from_alg_id L ss (Alg "id_DHBasedMac" p) data in guard (bytes_eqb v e) EBadMessageCheck).
Proof.
  intros L rnd m w p v ss data A V D K S. rewrite (verify_dh_eq _ _ _ _ _ _ A V). unfold verify_dh_based_protection.
  assert (G : match v_ss w with None => match v_key w with None => false | Some _ => true end | Some _ => true end = true).
  { destruct (v_ss w); [reflexivity|]. destruct (v_key w); [reflexivity|]. now specialize (K eq_refl). }
  replace (match v_ss w, v_key w with None, None => false | _, _ => true end) with true by (destruct (v_ss w), (v_key w); easy).
  cbn [guard bind]. unfold dh_secret in S.
  destruct (given (v_ss w)); rewrite S || (inversion S; subst); cbn [bind];
    unfold compute_symmetric_protection; apply protected_part_ok in D; rewrite D; reflexivity.
Qed.
Theorem dh_decides : forall L rnd m w p v ss data,
  h_alg (m_header m) = Some (Alg "id_DHBasedMac" p) -> m_prot m = Some v -> part_of L m data ->
  v_ss w = Some ss -> ss <> [] ->
  (verify_pkimessage_protection L rnd m w = Ok tt <-> dh_value L (Alg "id_DHBasedMac" p) ss data v) /\
  (forall e, dh_value L (Alg "id_DHBasedMac" p) ss data e -> e <> v ->
             verify_pkimessage_protection L rnd m w = Err EBadMessageCheck).
Proof.
  intros L rnd m w p v ss data A V D S NE.
  assert (X : dh_secret L (v_key w) (option_map PeerKey (v_public w)) (m_certs m) (v_ss w) = Ok ss).
  { rewrite S. unfold dh_secret, given. destruct ss; [congruence|reflexivity]. }
  rewrite (verify_dh_secret L rnd m w p v ss data A V D); [|rewrite S; discriminate|exact X].
  split.
  - rewrite <- dh_exact. split.
    + intro H. apply bind_inv in H as (e & E & G). apply bytes_eqb_guard in G. congruence.
    + intro H. rewrite H. cbn [bind]. now apply bytes_eqb_guard.
  - intros e H N. apply dh_exact in H. rewrite H. cbn [bind].
    destruct (bytes_eqb v e) eqn:E; [|reflexivity]. apply bytes_eqb_eq in E. congruence.
Qed.
(** What protect_pkimessage put into the message. *)
Lemma protect_dh : forall L r1 r2 m prot o m', protect_pkimessage L r1 r2 m prot o = Ok m' ->
  protection_get prot = Ok PA_DH ->
  exists p v v2 ss data, prepared_dh (Alg "id_DHBasedMac" p) /\ h_alg (m_header m') = Some (Alg "id_DHBasedMac" p) /\
    m_prot m' = Some v2 /\ (if o_bad o then manipulate_first_byte v else Ok v) = Ok v2 /\
    dh_secret L (o_key o) (o_peer o) [] (o_ss o) = Ok ss /\ part_of L m' data /\
    compute_dh_based_mac_from_alg_id L ss (Alg "id_DHBasedMac" p) data = Ok v.
Proof.
  intros L r1 r2 m prot o m' H G.
  destruct (protect_inv _ _ _ _ _ _ _ H) as (h & a & v & v2 & c & HA & HV & HB & _ & EH & EB & EP).
  pose proof (prepare_dh _ _ _ _ HA G) as P. inversion P as [ow mac F E]. rewrite <- E in *.
  unfold compute_pkimessage_protection in HV. apply bind_inv in HV as (u & _ & HV). cbn [a_oid] in HV.
  change (String.eqb "id_DHBasedMac" "id_DHBasedMac") with true in HV. cbv iota in HV.
  apply bind_inv in HV as (ss & S & HV). unfold compute_symmetric_protection in HV. apply bind_inv in HV as (data & D & HV).
  exists (PDhbm (Alg ow (PRaw [5; 0])) mac), v, v2, ss, data. repeat split; auto.
  - now rewrite EH.
  - apply protected_part_ok in D as (b & B & D). exists b. split; [now rewrite EB|now rewrite EH].
Qed.
Lemma dh_exchange_sym : forall L ka kb p q certs ss, prim_ok L -> peer_key p = Ok kb ->
  (q = Some ka \/ (q = None /\ exists c r, certs = c :: r /\ c_pub c = Ok ka)) ->
  dh_exchange L (Some ka) (Some p) [] = Ok ss -> dh_exchange L (Some kb) (option_map PeerKey q) certs = Ok ss.
Proof.
  intros L ka kb p q certs ss P PK Q H. unfold dh_exchange in H. cbn [negb guard bind] in H.
  apply bind_inv in H as ([] & G1 & H). apply guard_true in G1.
  apply bind_inv in H as (pk & E & H). assert (pk = kb) by (destruct p; cbn in *; congruence). subst pk.
  apply bind_inv in H as ([] & G2 & H). apply guard_true in G2. apply (pm_ecdh _ P) in H.
  unfold dh_exchange. destruct Q as [->|(-> & c & r & -> & C)]; cbn [option_map].
  - destruct certs; cbn [negb guard bind]; rewrite G2; cbn [guard bind]; rewrite G1; cbn [guard bind]; exact H.
  - cbn [negb guard bind]. rewrite G2. cbn [guard bind]. rewrite C. cbn [bind]. rewrite G1. cbn [guard bind]. exact H.
Qed.
Theorem dh_roundtrip : forall L r1 r2 r3 m prot o m' w, lib_ok L ->
  protect_pkimessage L r1 r2 m prot o = Ok m' -> protection_get prot = Ok PA_DH ->
  (o_ss o = v_ss w /\ given (o_ss o) <> None \/
   given (o_ss o) = None /\ given (v_ss w) = None /\
   exists ka kb p, o_key o = Some ka /\ v_key w = Some kb /\ o_peer o = Some p /\ peer_key p = Ok kb /\ sender_key m' w ka) ->
  verify_pkimessage_protection L r3 (transport L m') w = (if o_bad o then Err EBadMessageCheck else Ok tt).
Proof.
  intros L r1 r2 r3 m prot o m' w HL H G X.
  destruct (protect_dh _ _ _ _ _ _ _ H G) as (p & v & v2 & ss & data & P & A & V & B & S & D & C).
  assert (AT : h_alg (m_header (transport L m')) = Some (wire_alg L (Alg "id_DHBasedMac" p))).
  { cbn [transport set_header m_header wire_header h_alg]. now rewrite A. }
  pose proof (transport_part _ _ _ (lk_part _ HL) D) as DT.
  assert (SV : dh_secret L (v_key w) (option_map PeerKey (v_public w)) (m_certs (transport L m')) (v_ss w) = Ok ss).
  { destruct X as [(E & N)|(E1 & E2 & ka & kb & pp & K1 & K2 & K3 & K4 & K5)].
    - unfold dh_secret in *. rewrite <- E. destruct (given (o_ss o)); [exact S|congruence].
    - unfold dh_secret in *. rewrite E1 in S. rewrite E2. rewrite K1, K3 in S. rewrite K2.
      refine (dh_exchange_sym L ka kb pp _ _ ss (lk_prim _ HL) K4 _ S). exact K5. }
  unfold wire_alg in AT. cbn [a_oid a_params] in AT.
  rewrite (verify_dh_secret L r3 (transport L m') w _ v2 ss data AT V DT); [| |exact SV].
  - pose proof (dh_wire L _ ss data (lk_codec _ HL) P) as W. unfold wire_alg in W. cbn [a_oid a_params] in W.
    rewrite W, C. cbn [bind]. destruct (o_bad o).
    + apply manip_neq in B. destruct (bytes_eqb v2 v) eqn:E; [apply bytes_eqb_eq in E; congruence|reflexivity].
    + inversion B; subst. now rewrite bytes_eqb_refl.
  - intro N. destruct X as [(E & Q)|(E1 & E2 & ka & kb & pp & K1 & K2 & _)]; [|congruence].
    rewrite N in E. rewrite E in Q. cbn in Q. congruence.
Qed.
