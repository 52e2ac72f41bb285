(** C40: X-Wing, Chempat and composite KEM. *)
From Coq Require Import String.
From Verif Require Import Prelude CompSigModel TradKemModel TradKemSpec TradKemProperties HybKemModel HybKemSpec HybKemProofs HybKemWitness.
From Verif Require PqKeyModel PqKeySpec PqKeyProperties PqKeyProofs MlKemModel MlKemSpec MlKemWitness MlDsaWitness SlhWitness.
Open Scope Z_scope.
Local Notation length := List.length.

(** * A library that meets the assumptions *)
Definition toyE : PqKeyModel.env := {| PqKeyModel.e_kem := toy2; PqKeyModel.e_dsa := MlDsaWitness.toy; PqKeyModel.e_slh := SlhWitness.toy;
  PqKeyModel.e_hash := fun _ x => MlDsaWitness.toy_hash 64 x |}.
Definition toyH : hlib := {|
  h_trad := toy; h_sha3 := MlKemWitness.toy_hash 32; h_shake96 := fun s => MlKemWitness.ex_d ++ MlKemWitness.ex_z ++ fit 32 s;
  h_hmac := fun h k m => MlKemWitness.toy_hash (digest_size h) (k ++ m);
  h_pq := toyE; h_enc := fun _ _ m => Ok (fit 32 m, fit 40 m); h_dec := fun _ _ ct => Ok (firstn 32 ct); h_ct_len := fun _ => 40%nat |}.
Lemma toyH_good : good_hlib toyH.
Proof.
  constructor.
  - exact toy_good.
  - intros c d. cbn [toyH h_trad toy t_pub]. rewrite fit_length. destruct c; reflexivity.
  - split; [exact toy2_lengths|]. split; [exact MlDsaWitness.toy_lengths|exact SlhWitness.toy_ok].
  - intro m. apply MlKemWitness.toy_gen_length.
  - intro m. cbn [toyH h_shake96]. rewrite !app_length, fit_length. reflexivity.
Qed.
Lemma toy_pq_correct a n m : pq_correct toyH {| ps_name := Frodo n a; ps_priv := [1]; ps_pub := [2]; ps_seed := None |} m.
Proof.
  intros ss ct H. change (Ok (fit 32 m, fit 40 m) = Ok (ss, ct)) in H. injection H as <- <-. split; [apply fit_length|].
  cbn [pq_decaps ps_name ps_priv toyH h_dec]. f_equal. unfold fit. rewrite firstn_firstn. change (Nat.min 32 40) with 32%nat.
  change 40%nat with (32 + 8)%nat. rewrite repeat_app, app_assoc, (firstn_app 32 (m ++ repeat 0 32)).
  replace (32 - length (m ++ repeat 0%Z 32))%nat with 0%nat by (rewrite app_length, repeat_length; lia).
  rewrite firstn_O, app_nil_r. reflexivity.
Qed.

(** The X-Wing key of a 32 byte seed. *)
Definition ex_seed : bytes := repeat 3 32.
Lemma ex_xwing : exists k, xwing_from_seed toyH ex_seed = Ok k.
Proof.
  destruct ex_keygen768 as (ek & dk & G). unfold xwing_from_seed. change (length ex_seed =? 32)%nat with true. cbn [orb].
  unfold xwing_expand. change (length ex_seed =? 32)%nat with true. cbv zeta iota. cbn [toyH h_shake96 h_pq].
  set (e := MlKemWitness.ex_d ++ MlKemWitness.ex_z ++ fit 32 ex_seed).
  change (length e =? 96)%nat with true. cbn [guard bind].
  assert (F : firstn 64 e = MlKemWitness.ex_d ++ MlKemWitness.ex_z).
  { unfold e. rewrite app_assoc. apply firstn_app_exact. reflexivity. }
  rewrite F. unfold PqKeyModel.kem_from_private_bytes.
  change (length (MlKemWitness.ex_d ++ MlKemWitness.ex_z) =? 64)%nat with true. cbv iota. unfold PqKeyModel.kem_from_seed.
  change (length (MlKemWitness.ex_d ++ MlKemWitness.ex_z) =? 64)%nat with true. cbn [guard bind].
  rewrite firstn_app_exact, skipn_app_exact by reflexivity. cbn [toyE PqKeyModel.e_kem PqKeyModel.kem_params]. rewrite G. cbn [bind].
  change (x25519_priv (slice 64 96 e)) with (Ok (A := bytes) (slice 64 96 e)). eexists. reflexivity.
Qed.
Lemma ex_xwing_key : exists k, xwing_key toyH ex_seed k.
Proof.
  destruct ex_xwing as [k K]. exists k. exact (xwing_seed_ok _ _ _ K).
Qed.
Lemma ex_xwing_fine k e : expanded toyH ex_seed e ->
  kem_no_failure (h_pq toyH) PqKeyModel.K768 (firstn 64 e) (xp_pq (xwing_public toyH k)) MlKemWitness.ex_m.
Proof.
  intros [[_ ->]|[C _]]; [|discriminate C]. cbn [toyH h_shake96]. rewrite app_assoc, firstn_app_exact by reflexivity.
  unfold kem_no_failure. cbv zeta. cbn [h_pq toyH toyE PqKeyModel.e_kem PqKeyModel.kem_params].
  rewrite firstn_app_exact by reflexivity. rewrite !toy2_g by reflexivity. exact ex_no_failure768.
Qed.

(** * C40: X-Wing *)
(** Encapsulation: the two component mechanisms, the combiner of the draft, and the concatenation as ciphertext. *)
Theorem C40_xwing_encaps : forall L k eph m ss ct,
  xwing_encaps L k eph m = Ok (ss, ct) <->
  exists ss_m ct_m ss_x, PqKeyModel.kem_encaps (h_pq L) PqKeyModel.K768 (xp_pq k) m = Ok (ss_m, ct_m) /\
    t_exchange (h_trad L) X25519 eph (xp_trad k) = Ok ss_x /\
    ct = ct_m ++ t_pub (h_trad L) X25519 eph /\ ss = xwing_secret L ss_m ss_x (t_pub (h_trad L) X25519 eph) (xp_trad k).
Proof. exact xwing_encaps_iff. Qed.
(** Decapsulation: the first 1088 bytes go to ML-KEM, the next 32 to x25519; what follows is ignored. *)
Theorem C40_xwing_decaps : forall L k ct ss,
  xwing_decaps L k ct = Ok ss <->
  exists ct_m ct_x rest ss_m ss_x, ct = ct_m ++ ct_x ++ rest /\ length ct_m = 1088%nat /\ length ct_x = 32%nat /\
    PqKeyModel.kem_decaps (h_pq L) PqKeyModel.K768 (PqKeyModel.k_priv (xs_pq k)) ct_m = Ok ss_m /\
    t_exchange (h_trad L) X25519 (xs_trad k) ct_x = Ok ss_x /\
    ss = xwing_secret L ss_m ss_x ct_x (t_pub (h_trad L) X25519 (xs_trad k)).
Proof. exact xwing_decaps_iff. Qed.
(** Both sides get the same secret, for the key of any seed. *)
Theorem C40_xwing_agreement : forall L seed k eph m ss ct, good_hlib L -> xwing_key L seed k -> length m = 32%nat -> is_bytes m = true ->
  (forall e, expanded L seed e -> kem_no_failure (h_pq L) PqKeyModel.K768 (firstn 64 e) (xp_pq (xwing_public L k)) m) ->
  xwing_encaps L (xwing_public L k) eph m = Ok (ss, ct) -> length ct = 1120%nat /\ xwing_decaps L k ct = Ok ss.
Proof. exact xwing_agree. Qed.
Example C40_xwing_ex : exists k ss ct, xwing_key toyH ex_seed k /\
  xwing_encaps toyH (xwing_public toyH k) [8; 9] MlKemWitness.ex_m = Ok (ss, ct) /\ xwing_decaps toyH k ct = Ok ss.
Proof.
  destruct ex_xwing_key as [k K].
  destruct (xwing_total toyH ex_seed k [8; 9] MlKemWitness.ex_m toyH_good K eq_refl eq_refl) as (ss & ct & H).
  { intros d q. eexists. reflexivity. }
  exists k, ss, ct. split; [exact K|]. split; [exact H|].
  apply (C40_xwing_agreement toyH ex_seed k [8; 9] MlKemWitness.ex_m ss ct toyH_good K eq_refl eq_refl); [|exact H].
  intros e Ex. apply ex_xwing_fine, Ex.
Qed.
(** Loading a seed gives its key. *)
Theorem C40_xwing_seed : forall L seed k, xwing_from_seed L seed = Ok k -> xwing_key L seed k.
Proof. exact xwing_seed_ok. Qed.
(** Two successful decapsulations with the same result, with any keys, used the same x25519 ciphertext and public key,
    unless SHA3-256 has a collision. *)
Theorem C40_xwing_binding : forall L k k' ct ct' ss, good_hlib L ->
  xwing_decaps L k ct = Ok ss -> xwing_decaps L k' ct' = Ok ss ->
  collision (h_sha3 L) \/
  (slice 1088 1120 ct = slice 1088 1120 ct' /\
   t_pub (h_trad L) X25519 (xs_trad k) = t_pub (h_trad L) X25519 (xs_trad k')).
Proof. exact xwing_binding. Qed.
(** The length of the ciphertext is not checked: anything may follow it. *)
Theorem C40_xwing_length_refuted :
  (forall L k ct ss rest, xwing_decaps L k ct = Ok ss -> xwing_decaps L k (ct ++ rest) = Ok ss) /\
  ~ (forall L, good_hlib L -> forall k ct ss, xwing_decaps L k ct = Ok ss -> length ct = 1120%nat).
Proof.
  assert (A : forall L k ct ss rest, xwing_decaps L k ct = Ok ss -> xwing_decaps L k (ct ++ rest) = Ok ss).
  { intros L k ct ss rest H. apply xwing_decaps_iff in H. destruct H as (cm & cx & r & sm & sx & -> & H). apply xwing_decaps_iff.
    exists cm, cx, (r ++ rest), sm, sx. rewrite <- !app_assoc. auto. }
  split; [exact A|]. intro H. destruct C40_xwing_ex as (k & ss & ct & _ & _ & D).
  pose proof (H toyH toyH_good k ct ss D) as L1. pose proof (H toyH toyH_good k (ct ++ [0]) ss (A _ _ _ _ [0] D)) as L2.
  rewrite app_length, L1 in L2. discriminate L2.
Qed.

(** * C40: Chempat *)
Theorem C40_chempat_encaps : forall L k priv r m ss ct,
  chempat_encaps L k priv r m = Ok (ss, ct) <->
  exists pq_ss pq_ct trad_ss trad_ct ctx,
    pq_encaps L (cp_pq k) m = Ok (pq_ss, pq_ct) /\
    trad_encaps (h_trad L) (PDh true (cp_curve k) (cp_trad k)) priv r = Ok (trad_ss, trad_ct) /\
    context_of (pp_name (cp_pq k)) (cp_curve k) ctx /\ ct = trad_ct ++ pq_ct /\
    ss = chempat_secret L trad_ss pq_ss trad_ct pq_ct (pp_bytes (cp_pq k)) (cp_trad k) ctx.
Proof. exact chempat_encaps_iff. Qed.
(** Decapsulation reads the whole ciphertext: a compressed or uncompressed point (one form for x25519 and x448) and a
    post-quantum ciphertext of the length of the algorithm. *)
Definition point_length (c : curve) (n : nat) : Prop :=
  match c with
  | P256 | BP256 => n = 33%nat \/ n = 65%nat | P384 | BP384 => n = 49%nat \/ n = 97%nat | BP512 => n = 65%nat \/ n = 129%nat
  | X25519 => n = 32%nat | X448 => n = 56%nat | P521 => False
  end.
Theorem C40_chempat_decaps : forall L k ct ss,
  chempat_decaps L k ct = Ok ss <->
  exists trad_ct pq_ct trad_ss pq_ss ctx, ct = trad_ct ++ pq_ct /\
    length pq_ct = pq_ct_length L (ps_name (cs_pq k)) /\ point_length (cs_curve k) (length trad_ct) /\
    trad_decaps (h_trad L) (SDh true (cs_curve k) (cs_trad k)) trad_ct = Ok trad_ss /\
    pq_decaps L (cs_pq k) pq_ct = Ok pq_ss /\
    context_of (ps_name (cs_pq k)) (cs_curve k) ctx /\
    ss = chempat_secret L trad_ss pq_ss trad_ct pq_ct (ps_pub (cs_pq k)) (t_pub (h_trad L) (cs_curve k) (cs_trad k)) ctx.
Proof.
  intros L k ct ss. rewrite chempat_decaps_iff.
  assert (A : forall q ctx n, context_of q (cs_curve k) ctx ->
    (n = dh_ct_length (cs_curve k) \/ is_ec (cs_curve k) = true /\ n = nenc_long (cs_curve k)) <-> point_length (cs_curve k) n).
  { intros q ctx n (x & Hx & _). destruct (cs_curve k); try discriminate Hx; cbn [point_length is_ec];
      match goal with |- context[dh_ct_length ?c] => let v := eval vm_compute in (dh_ct_length c) in change (dh_ct_length c) with v;
        let w := eval vm_compute in (nenc_long c) in change (nenc_long c) with w end; intuition congruence. }
  split; intros (tc & pc & ts & ps & ctx & H1 & H2 & H3 & H4 & H5 & H6 & H7); exists tc, pc, ts, ps, ctx;
    (split; [exact H1|]); (split; [exact H2|]); (split; [apply (A _ _ _ H6), H3|]); auto.
Qed.
Theorem C40_chempat_agreement : forall L k priv r m ss ct, good_hlib L -> pq_correct L (cs_pq k) m ->
  chempat_encaps L (chempat_public L k) priv r m = Ok (ss, ct) -> chempat_decaps L k ct = Ok ss.
Proof. exact chempat_agree. Qed.
(** The condition on the post-quantum half holds for ML-KEM keys with the usual correctness condition. *)
Theorem C40_kem_half : forall L a s k k' m, good_hlib L -> PqKeySpec.seeded (h_pq L) (PqKeyModel.Kem a) s k -> PqKeySpec.same_key k k' ->
  length m = 32%nat -> is_bytes m = true -> kem_no_failure (h_pq L) a s (PqKeyModel.p_bytes (PqKeyModel.public_key k')) m ->
  pq_correct L (of_kem a k') m.
Proof. intros L a s k k' m G. apply kem_correct, (gh_pq _ G). Qed.
Example ex_cpriv : cpriv := {| cs_pq := {| ps_name := Frodo F976 true; ps_priv := [1]; ps_pub := [2]; ps_seed := None |};
  cs_curve := BP384; cs_trad := [7; 7] |}.
Example C40_chempat_ex : pq_correct toyH (cs_pq ex_cpriv) [5; 6] /\
  exists ss ct, chempat_encaps toyH (chempat_public toyH ex_cpriv) None ex_r [5; 6] = Ok (ss, ct) /\ length ct = 137%nat.
Proof. split; [apply toy_pq_correct|]. do 2 eexists. split; [vm_compute; reflexivity|reflexivity]. Qed.
(** Equal secrets mean equal ciphertexts, equal public keys, the same curve and the same algorithm up to the variant of
    FrodoKEM, unless SHA3-256 has a collision: for any two keys. *)
Theorem C40_chempat_binding : forall L k k' ct ct' ss, good_hlib L ->
  chempat_decaps L k ct = Ok ss -> chempat_decaps L k' ct' = Ok ss ->
  collision (h_sha3 L) \/
  (ct = ct' /\ cs_curve k = cs_curve k' /\ same_context_alg (ps_name (cs_pq k)) (ps_name (cs_pq k')) /\
   ps_pub (cs_pq k) ++ t_pub (h_trad L) (cs_curve k) (cs_trad k) = ps_pub (cs_pq k') ++ t_pub (h_trad L) (cs_curve k') (cs_trad k')).
Proof. exact chempat_binding. Qed.
(** A context determines the curve and, up to the FrodoKEM variant, the algorithm. *)
Theorem C40_chempat_context : forall q c q' c' ctx, context_of q c ctx -> context_of q' c' ctx -> c = c' /\ same_context_alg q q'.
Proof. exact context_inj. Qed.
Theorem C40_chempat_context_refuted : ~ (forall q c q' ctx, context_of q c ctx -> context_of q' c ctx -> q = q').
Proof.
  intro H. assert (C : Frodo F640 true = Frodo F640 false); [|discriminate C].
  apply (H _ X25519 _ (lit "Chempat-X25519-FrodoKEM-640"%string)); exists "X25519"%string; split; reflexivity.
Qed.
(** Identifiers: those of the table, and only those. *)
Theorem C40_chempat_oid : forall L k o, chempat_oid L k = Ok o <-> In (pp_name (cp_pq k), cp_curve k, o) chempat_rows.
Proof. exact chempat_oid_iff. Qed.
Example C40_chempat_oid_ex : chempat_oid toyH (chempat_public toyH ex_cpriv) = Ok [1; 3; 6; 1; 5; 5; 7; 4; 9996; 9999; 3; 2; 22].
Proof. reflexivity. Qed.

(** * C40: composite KEM *)
(** A key has an identifier exactly if its combination is a row, and then that of the row; different rows have different
    identifiers; the DER form the combiner uses is that of the identifier. *)
Theorem C40_comp_oid : forall L k o, comp_oid L k = Ok o <-> exists r, key_row L k r /\ o = kr_oid r.
Proof. exact comp_oid_iff. Qed.
Theorem C40_comp_rows : forall r r', In r all_rows -> In r' all_rows ->
  is_der_oid (kr_oid r) (der_oid (kr_oid r)) /\ (kr_oid r = kr_oid r' -> r = r').
Proof.
  intros r r' I I'. split; [apply der_rows, I|]. intro H. apply (der_suffix [] [] r r' I I'). rewrite H. reflexivity.
Qed.
(** Encapsulation: the secret is derived from both secrets, the traditional ciphertext and public key and the identifier, with
    the key derivation function of the row if use_in_cms is False, and SHA3-256 if it is True. *)
Theorem C40_comp_encaps : forall L k priv r m cms ss ct,
  comp_encaps L k priv r m cms = Ok (ss, ct) <->
  exists ms mc ts tc row, pq_encaps L (kp_pq k) m = Ok (ms, mc) /\ trad_encaps (h_trad L) (kp_trad k) priv r = Ok (ts, tc) /\
    key_row L k row /\ ct = mc ++ tc /\
    ss = run_kdf L (if cms then KSha3 else row_kdf row) (combiner_input ms ts tc (trad_encode (h_trad L) (kp_trad k)) (der_oid (kr_oid row))).
Proof. exact comp_encaps_iff. Qed.
Theorem C40_comp_decaps : forall L k ct cms ss,
  comp_decaps L k ct cms = Ok ss <->
  exists ms ts row, let n := pq_ct_length L (ps_name (ks_pq k)) in
    pq_decaps L (ks_pq k) (firstn n ct) = Ok ms /\ trad_decaps (h_trad L) (ks_trad k) (skipn n ct) = Ok ts /\
    key_row L (comp_public L k) row /\
    ss = run_kdf L (if cms then KSha3 else row_kdf row)
           (combiner_input ms ts (skipn n ct) (trad_encode (h_trad L) (trad_public (h_trad L) (ks_trad k))) (der_oid (kr_oid row))).
Proof. exact comp_decaps_iff. Qed.
(** The keys are those the constructors make, of both classes ([b]). *)
Theorem C40_comp_agreement : forall L b q t priv r m cms ss ct, good_hlib L -> pq_correct L q m ->
  let k := mk_kpriv b q t in
  comp_encaps L (comp_public L k) priv r m cms = Ok (ss, ct) -> comp_decaps L k ct cms = Ok ss.
Proof. exact comp_agree. Qed.
Example ex_pq : pqpriv := {| ps_name := Frodo F976 false; ps_priv := [1]; ps_pub := [2]; ps_seed := None |}.
Example C40_comp_ex : forall b cms, exists ss ct,
  comp_encaps toyH (comp_public toyH (mk_kpriv b ex_pq (SDh false X25519 [7; 7]))) None ex_r [5; 6] cms = Ok (ss, ct) /\
  length ct = 72%nat /\ pq_correct toyH ex_pq [5; 6].
Proof. intros [] []; do 2 eexists; (split; [vm_compute; reflexivity|]); (split; [reflexivity|apply toy_pq_correct]). Qed.
Example C40_comp_rsa_ex : exists ss ct,
  comp_encaps toyH (comp_public toyH (mk_kpriv false ex_pq (SRsa [7; 7]))) None ex_r [5; 6] false = Ok (ss, ct) /\ length ct = 72%nat.
Proof. do 2 eexists. split; [vm_compute; reflexivity|reflexivity]. Qed.
(** With use_in_cms, which is the default of encaps and decaps, the key derivation is not that of the row. *)
Theorem C40_comp_default_kdf_refuted : ~ (forall L k priv r m ss ct row, comp_encaps L k priv r m true = Ok (ss, ct) -> key_row L k row ->
  exists x, ss = run_kdf L (row_kdf row) x).
Proof.
  intro H.
  pose (L := {| h_trad := toy; h_sha3 := fun _ => repeat 1 32; h_shake96 := h_shake96 toyH; h_hmac := fun _ _ _ => repeat 2 32; h_pq := toyE;
    h_enc := h_enc toyH; h_dec := h_dec toyH; h_ct_len := h_ct_len toyH |}).
  pose (k := comp_public L (mk_kpriv false ex_pq (SDh false P384 [7; 7]))).
  destruct (H L k None ex_r [5; 6] (repeat 1 32) (fit 40 [5; 6] ++ fit 97 (r_eph ex_r)) (KRow false (Frodo F976 false) (ADh P384) (suite 1 11))) as [x X].
  - vm_compute. reflexivity.
  - repeat split. unfold all_rows. apply in_or_app. right. vm_compute. do 10 right. left. reflexivity.
  - discriminate X.
Qed.
(** Equal secrets of two keys (with the same key derivation function) mean the same combination, and equal traditional
    ciphertexts and public keys if their lengths are equal, unless the function has a collision. *)
Theorem C40_comp_binding : forall L k k' ct ct' cms row row' ss,
  key_row L (comp_public L k) row -> key_row L (comp_public L k') row' ->
  cms = true \/ row_kdf row = row_kdf row' ->
  comp_decaps L k ct cms = Ok ss -> comp_decaps L k' ct' cms = Ok ss ->
  let kdf := if cms then KSha3 else row_kdf row in
  let tc := skipn (pq_ct_length L (ps_name (ks_pq k))) ct in
  let tc' := skipn (pq_ct_length L (ps_name (ks_pq k'))) ct' in
  let tp k := trad_encode (h_trad L) (trad_public (h_trad L) (ks_trad k)) in
  collision (run_kdf L kdf) \/
  (row = row' /\ (length (tc ++ tp k) = length (tc' ++ tp k') -> tc ++ tp k = tc' ++ tp k')).
Proof. exact comp_binding. Qed.
Example C40_comp_binding_ex : let k := mk_kpriv false ex_pq (SDh false X25519 [7; 7]) in
  key_row toyH (comp_public toyH k) (KRow false (Frodo F976 false) (ADh X25519) (suite 1 10)) /\
  exists ct ss, comp_decaps toyH k ct true = Ok ss.
Proof.
  cbv zeta. split.
  - repeat split. unfold all_rows. apply in_or_app. right. vm_compute. do 9 right. left. reflexivity.
  - exists (repeat 4 72). eexists. vm_compute. reflexivity.
Qed.
(** The private and the public key have the same identifier, except for RSA keys of another size than the listed ones. *)
Theorem C40_comp_priv_oid : forall L b q t,
  (forall k, t = SRsa k -> In (t_rsa_bits (h_trad L) (t_rsa_pub (h_trad L) k)) [2048; 3072; 4096]%N) ->
  comp_priv_oid L (mk_kpriv b q t) = comp_oid L (comp_public L (mk_kpriv b q t)).
Proof.
  intros L b q t H. apply comp_priv_oid_eq. intros k E. specialize (H k E). set (n := t_rsa_bits _ _) in *.
  destruct H as [<-|[<-|[<-|[]]]]; reflexivity.
Qed.
Theorem C40_comp_priv_oid_refuted : ~ (forall L, good_hlib L -> forall b q t o,
  comp_priv_oid L (mk_kpriv b q t) = Ok o -> comp_oid L (comp_public L (mk_kpriv b q t)) = Ok o).
Proof.
  intro H.
  pose (T := {| t_pub := t_pub toy; t_exchange := t_exchange toy; t_point := t_point toy; t_hash := t_hash toy; t_extract := t_extract toy;
    t_expand := t_expand toy; t_rsa_pub := t_rsa_pub toy; t_rsa_bits := fun _ => 2050%N; t_rsa_der := t_rsa_der toy;
    t_oaep_enc := t_oaep_enc toy; t_oaep_dec := t_oaep_dec toy |}).
  pose (L := {| h_trad := T; h_sha3 := h_sha3 toyH; h_shake96 := h_shake96 toyH; h_hmac := h_hmac toyH; h_pq := toyE;
    h_enc := h_enc toyH; h_dec := h_dec toyH; h_ct_len := h_ct_len toyH |}).
  assert (G : good_hlib L).
  { destruct toyH_good as [[g1 g2 g3 g4 g5] h2 h3 h4 h5]. constructor; [constructor; assumption|assumption|assumption|assumption|assumption]. }
  specialize (H L G false ex_pq (SRsa [1]) (suite 1 7) eq_refl). discriminate H.
Qed.

Print Assumptions C40_xwing_encaps.
Print Assumptions C40_xwing_decaps.
Print Assumptions C40_xwing_agreement.
Print Assumptions C40_xwing_seed.
Print Assumptions C40_xwing_binding.
Print Assumptions C40_xwing_length_refuted.
Print Assumptions C40_chempat_encaps.
Print Assumptions C40_chempat_decaps.
Print Assumptions C40_chempat_agreement.
Print Assumptions C40_kem_half.
Print Assumptions C40_chempat_binding.
Print Assumptions C40_chempat_context.
Print Assumptions C40_chempat_context_refuted.
Print Assumptions C40_chempat_oid.
Print Assumptions C40_comp_oid.
Print Assumptions C40_comp_rows.
Print Assumptions C40_comp_encaps.
Print Assumptions C40_comp_decaps.
Print Assumptions C40_comp_agreement.
Print Assumptions C40_comp_default_kdf_refuted.
Print Assumptions C40_comp_binding.
Print Assumptions C40_comp_priv_oid.
Print Assumptions C40_comp_priv_oid_refuted.
