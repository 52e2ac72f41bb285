(** C41: composite signatures need both components. *)
From Coq Require Import String NArith.
From Verif Require Import Prelude CompSigModel CompSigSpec CompSigProofs.
From Verif Require PqKeyModel PqKeySpec PqKeyProofs PqKeyProperties MlDsaModel MlDsaProperties MlDsaSpec MlDsaEnc MlDsaWitness PqKeyUse.
Import ListNotations.
Open Scope Z_scope.

(** A composite signature is accepted exactly when the context is at most 255 bytes, the two keys form
    one of the 18 combinations of the draft, and both halves verify on the draft's representative. *)
Theorem C41_verify : forall E k data sg ctx pss, verify E k data sg ctx pss = Ok tt <->
  (List.length ctx <= 255)%nat /\ exists r, pub_row k pss r /\
  let m := representative r ctx (c_hash E (r_pre r) data) in
  dsa_accepts E r (pk_pq_bytes k) m (firstn (dsa_len (r_dsa r)) sg) /\
  trad_verify E (pk_trad k) (pad_of pss) (r_inner r) m (skipn (dsa_len (r_dsa r)) sg) = Ok tt.
Proof. exact verify_iff. Qed.
(** The combination is determined by the keys and the padding. *)
Theorem C41_row_unique : forall k pss r r', pub_row k pss r -> pub_row k pss r' -> r = r'.
Proof. exact pub_row_unique. Qed.
(** With a well-formed public key, a signature shorter than its ML-DSA half is never accepted. *)
Theorem C41_not_short : forall E k data sg ctx pss,
  List.length (pk_pq_bytes k) = PqKeySpec.std_pub (PqKeyModel.Dsa (pk_pq k)) -> is_bytes (pk_pq_bytes k) = true ->
  verify E k data sg ctx pss = Ok tt -> (dsa_len (pk_pq k) <= List.length sg)%nat.
Proof.
  intros E k data sg ctx pss Lp Bp H. apply verify_iff in H. destruct H as (_ & r & (I & D & _) & A & _). unfold dsa_accepts in A.
  rewrite D in A. destruct (Nat.le_gt_cases (dsa_len (pk_pq k)) (List.length sg)) as [|S]; [assumption|exfalso].
  rewrite firstn_all2 in A by lia. unfold PqKeyModel.dsa_verify in A.
  destruct (255 <? List.length (lit (r_label r)))%nat eqn:Lc; cbn [negb guard bind] in A; [discriminate|]. cbn [PqKeyModel.dsa_check_hash bind] in A.
  apply Nat.ltb_ge in Lc.
  destruct (MlDsaProperties.C50_truncated (PqKeyModel.e_dsa (c_pq E)) (PqKeyModel.dsa_params (pk_pq k)) (pk_pq_bytes k)
    (representative r ctx (c_hash E (r_pre r) data)) (lit (r_label r)) sg) as [Q|Q]; try assumption.
  - apply PqKeyProofs.dsa_in.
  - rewrite Lp. destruct (pk_pq k); reflexivity.
  - replace (MlDsaEnc.sig_len (PqKeyModel.dsa_params (pk_pq k))) with (dsa_len (pk_pq k)) by (destruct (pk_pq k); reflexivity). exact S.
  - rewrite Q in A. discriminate.
  - rewrite Q in A. discriminate.
Qed.

(** Signing succeeds exactly when the draft allows it and both component schemes sign; the result is the
    concatenation. *)
Theorem C41_sign : forall E k fuel data ctx pss rnd sg, rsa_size_ok (sk_trad k) ->
  (sign E k fuel data ctx pss rnd = Some (Ok sg) <->
   (List.length ctx <= 255)%nat /\ exists r, priv_row k pss r /\
   let m := representative r ctx (c_hash E (r_pre r) data) in exists s t,
   PqKeyModel.dsa_sign (c_pq E) (r_dsa r) fuel (PqKeyModel.k_priv (sk_pq_key k)) m None (lit (r_label r)) false rnd = Some (Ok s) /\
   trad_sign E (sk_trad k) (pad_of pss) (r_inner r) m rnd = Ok t /\ sg = s ++ t).
Proof. exact sign_iff. Qed.

(** What is signed verifies under the public key of the signer. *)
Theorem C41_sign_verify : forall E k seed fuel data ctx pss rnd sg, PqKeySpec.good_env (c_pq E) -> trad_correct E ->
  PqKeySpec.seeded (c_pq E) (PqKeyModel.Dsa (sk_pq k)) seed (sk_pq_key k) -> rsa_size_ok (sk_trad k) ->
  sign E k fuel data ctx pss rnd = Some (Ok sg) -> verify E (public_key E k) data sg ctx pss = Ok tt.
Proof.
  intros E k seed fuel data ctx pss rnd sg HE HT HS HR H. apply (sign_iff E k fuel data ctx pss rnd sg HR) in H.
  destruct H as (L & r & (I & D & A) & s & t & S & T & ->). apply verify_iff. split; [exact L|]. exists r. split.
  { split; [exact I|]. split; [exact D|]. cbn [public_key pk_trad]. rewrite public_alg. exact A. }
  cbv zeta. rewrite <- D in HS.
  destruct (PqKeyProperties.C62_dsa _ _ _ _ (sk_pq_key k) _ _ _ _ _ _ _ HE HS ltac:(split; [|split]; reflexivity) (or_introl eq_refl) S) as [V Ls].
  assert (Ls' : List.length s = dsa_len (r_dsa r)) by exact Ls.
  rewrite <- Ls', firstn_app, firstn_all, Nat.sub_diag, firstn_O, app_nil_r, skipn_app, skipn_all, Nat.sub_diag, skipn_O. cbn [app].
  split; [exact V|]. exact (HT _ _ _ _ _ _ T).
Qed.

(** The representative determines the algorithm, the context and the digest; so one signed
    message never serves two algorithms or two contexts. *)
Theorem C41_representative : forall r r' ctx ctx' d d', In r draft -> In r' draft ->
  representative r ctx d = representative r' ctx' d' -> r = r' /\ ctx = ctx' /\ d = d'.
Proof. exact representative_inj. Qed.

(** The object identifiers: the last arc, exactly for the combinations of the draft. *)
Theorem C41_oid : forall k pss o, pub_oid k pss = Ok o <-> exists r, pub_row k pss r /\ r_arc r = o.
Proof. exact pub_oid_ok. Qed.

(** Findings. *)
(** An RSA key of any other size can sign with the private key's rounded name, but nothing it signs is ever accepted. *)
Theorem C41_rsa_rounding_refuted : forall E k bits b data sg ctx pss, sk_trad k = RsaPriv bits b ->
  ~ In bits [2048; 3072; 4096]%N -> verify E (public_key E k) data sg ctx pss <> Ok tt.
Proof.
  intros E k bits b data sg ctx pss T N H. apply verify_iff in H. destruct H as (_ & r & (I & _ & A) & _).
  cbn [public_key pk_trad trad_public pub_alg] in A. rewrite T in A. cbn [trad_public pub_alg] in A. injection A as A. apply N. clear N.
  cbv [draft] in I. cbn [In] in I.
  repeat (destruct I as [<-|I]; [cbn [r_trad] in A; first [discriminate A|injection A as -> _; cbn [In]; tauto]|]). destruct I.
Qed.
(** With ML-DSA-87 and an RSA key, the default padding argument always fails on both sides. *)
Theorem C41_default_padding_refuted : forall E k pk fuel data sg ctx rnd bits b b', (List.length ctx <= 255)%nat ->
  sk_pq k = PqKeyModel.D87 -> sk_trad k = RsaPriv bits b -> pk_pq pk = PqKeyModel.D87 -> pk_trad pk = RsaPub bits b' ->
  sign E k fuel data ctx false rnd = Some (Err EInvalidKeyCombination) /\
  verify E pk data sg ctx false = Err EInvalidKeyCombination.
Proof.
  intros E k pk fuel data sg ctx rnd bits b b' L D T D' T'.
  assert (N : forall n, oid_by_name (comp_name PqKeyModel.D87 (alg_name (TRsa n Pkcs15))) = Err EInvalidKeyCombination).
  { intro n. apply oid_err. intros r I A B. cbv [draft] in I. cbn [In] in I.
    repeat (destruct I as [<-|I]; [first [discriminate A|discriminate B]|]). destruct I. }
  assert (O : priv_oid k false = Err EInvalidKeyCombination).
  { unfold priv_oid. rewrite T, (priv_name (RsaPriv bits b) false (TRsa (get_rsa_size bits) Pkcs15) eq_refl). cbn [bind]. rewrite D. apply N. }
  assert (O' : pub_oid pk false = Err EInvalidKeyCombination).
  { unfold pub_oid. rewrite T', (pub_name (RsaPub bits b') false (TRsa bits Pkcs15) eq_refl). cbn [bind]. rewrite D'. apply N. }
  unfold sign, verify, prepare_input. rewrite O, O'. replace (255 <? List.length ctx)%nat with false by (symmetry; apply Nat.ltb_ge; exact L).
  cbn [negb guard bind]. auto.
Qed.
(** By default the exported public key names the PSS algorithm, while signing and verifying use PKCS #1 v1.5:
    for every RSA combination of the draft that has both. *)
Theorem C41_default_spki_refuted : forall k bits b o, pk_trad k = RsaPub bits b -> spki_oid k None = Ok o ->
  pub_oid k false <> Ok o.
Proof.
  intros k bits b o T S P. unfold spki_oid in S. apply pub_oid_ok in S, P. destruct S as (r & (I & D & A) & Q), P as (r' & (I' & D' & A') & Q').
  assert (r = r') by (apply arc_inj; congruence). subst r'. rewrite T in A, A'. cbn [pub_alg pad_of] in A, A'. congruence.
Qed.

(** ** Non-vacuity *)
Definition toy : env :=
  {| c_pq := PqKeyProperties.toyE; c_hash := fun _ _ => [0]; c_pub := fun _ => [1];
     c_rsa_sign := fun _ _ _ m _ => Ok m; c_rsa_verify := fun _ _ _ m s => guard (bytes_eqb m s) EInvalidSignature;
     c_ec_sign := fun _ _ _ m _ => Ok m; c_ec_verify := fun _ _ _ m s => guard (bytes_eqb m s) EInvalidSignature;
     c_ed25519_sign := fun _ m => Ok m; c_ed25519_verify := fun _ m s => guard (bytes_eqb m s) EInvalidSignature;
     c_ed448_sign := fun _ m => Ok m; c_ed448_verify := fun _ m s => guard (bytes_eqb m s) EInvalidSignature |}.
Lemma toy_correct : trad_correct toy.
Proof.
  assert (R : forall m, bytes_eqb m m = true) by (induction m as [|x m IH]; cbn; [reflexivity|rewrite Z.eqb_refl; exact IH]).
  intros t p h m rnd s H. destruct t; cbn in H |- *; try discriminate H; injection H as <-; rewrite R; reflexivity.
Qed.
Definition ex_row : row := nth 2 draft (Row 0 PqKeyModel.D44 TEd448 "" None Sha256).
Definition ex_label : bytes := lit (r_label ex_row).
Definition ex_m : bytes := representative ex_row [5; 6] [0].
Lemma ex_run : MlDsaWitness.f_run MlDsaModel.ml_dsa_44 MlDsaWitness.toy MlDsaWitness.ex_a MlDsaWitness.ex_xi
  ([0; Z.of_nat (List.length ex_label)] ++ ex_label ++ ex_m) = true.
Proof. vm_compute. reflexivity. Qed.
Lemma ex_dsa_sig : exists k s, PqKeySpec.seeded PqKeyProperties.toyE (PqKeyModel.Dsa PqKeyModel.D44) MlDsaWitness.ex_xi k /\
  PqKeyModel.dsa_sign PqKeyProperties.toyE PqKeyModel.D44 1 (PqKeyModel.k_priv k) ex_m None ex_label false [] = Some (Ok s).
Proof.
  assert (X : exists pk sk sg, MlDsaModel.keygen_internal MlDsaWitness.toy MlDsaModel.ml_dsa_44 MlDsaWitness.ex_xi = Ok (pk, sk) /\
    MlDsaModel.sign_internal MlDsaWitness.toy MlDsaModel.ml_dsa_44 1 sk ([0; Z.of_nat (List.length ex_label)] ++ ex_label ++ ex_m) (repeat 0 32) = Some (Ok sg) /\
    exists ct z h, MlDsaModel.sig_decode MlDsaModel.ml_dsa_44 sg = Ok (ct, z, Some h) /\ MlDsaSpec.nonzeros h <> 0%nat).
  { apply (MlDsaWitness.f_run_ok MlDsaModel.ml_dsa_44 MlDsaWitness.toy MlDsaWitness.ex_a MlDsaWitness.ah_ex MlDsaWitness.toy_lengths
      MlDsaWitness.toy_A MlDsaWitness.toy_expand).
    - apply MlDsaEnc.param_sets_good. left. reflexivity.
    - split; apply Nat.ltb_lt; reflexivity.
    - exact ex_run. }
  destruct X as (pk & sk & sg & G & Sg & _).
  destruct PqKeyProperties.ex_dsa_key as (k & H). exists k.
  pose proof H as [_ K]. apply PqKeyUse.dsa_seeded in K. cbn [PqKeyProperties.toyE PqKeyModel.e_dsa PqKeyModel.dsa_params] in K.
  assert (Ek : PqKeyModel.k_priv k = sk) by congruence. subst sk.
  assert (S : MlDsaModel.sign (PqKeyModel.e_dsa PqKeyProperties.toyE) (PqKeyModel.dsa_params PqKeyModel.D44) 1 (PqKeyModel.k_priv k) ex_m ex_label None = Some (Ok (Some sg))).
  { unfold MlDsaModel.sign. change (255 <? List.length ex_label)%nat with false. cbv iota zeta. cbn [PqKeyProperties.toyE PqKeyModel.e_dsa PqKeyModel.dsa_params].
    change (MlDsaModel.integer_to_bytes 0 1 ++ MlDsaModel.integer_to_bytes (Z.of_nat (List.length ex_label)) 1 ++ ex_label ++ ex_m)
      with ([0; Z.of_nat (List.length ex_label)] ++ ex_label ++ ex_m). change (MlDsaModel.default_rnd None) with (repeat 0 32).
    rewrite Sg. reflexivity. }
  destruct sg as [|x sg].
  { exfalso. destruct (MlDsaProperties.C33_verify _ _ _ _ _ _ _ _ _ _ (or_introl eq_refl) MlDsaWitness.toy_lengths G S) as (L & _). discriminate L. }
  exists (x :: sg). split; [exact H|]. unfold PqKeyModel.dsa_sign. change (255 <? List.length ex_label)%nat with false. cbv iota.
  cbn [PqKeyModel.dsa_check_hash]. rewrite S. reflexivity.
Qed.
(** A key pair of ML-DSA-44 with Ed25519 signs, and its signature is accepted. *)
Example C41_ex : exists k sg, PqKeySpec.good_env (c_pq toy) /\ trad_correct toy /\ rsa_size_ok (sk_trad k) /\
  PqKeySpec.seeded (c_pq toy) (PqKeyModel.Dsa (sk_pq k)) MlDsaWitness.ex_xi (sk_pq_key k) /\
  sign toy k 1 [9] [5; 6] false [] = Some (Ok sg) /\ verify toy (public_key toy k) [9] sg [5; 6] false = Ok tt.
Proof.
  destruct ex_dsa_sig as (k0 & s & H & S). set (k := {| sk_pq := PqKeyModel.D44; sk_pq_key := k0; sk_trad := Ed25519Priv [3] |}).
  assert (Sg : sign toy k 1 [9] [5; 6] false [] = Some (Ok (s ++ ex_m))).
  { apply C41_sign; [exact I|]. split; [cbn; lia|]. exists ex_row. split.
    - split; [right; right; left; reflexivity|]. split; reflexivity.
    - exists s, ex_m. split; [exact S|]. split; reflexivity. }
  exists k, (s ++ ex_m). split; [exact PqKeyProperties.toyE_good|]. split; [exact toy_correct|]. split; [exact I|]. split; [exact H|]. split; [exact Sg|].
  exact (C41_sign_verify toy k _ _ _ _ _ _ _ PqKeyProperties.toyE_good toy_correct H I Sg).
Qed.
Example C41_refuted_ex : ~ In 2100%N [2048; 3072; 4096]%N /\
  priv_oid {| sk_pq := PqKeyModel.D44; sk_pq_key := {| PqKeyModel.k_alg := PqKeyModel.Dsa PqKeyModel.D44; PqKeyModel.k_priv := []; PqKeyModel.k_pub := None; PqKeyModel.k_seed := None |};
             sk_trad := RsaPriv 2100 [] |} true = Ok 37 /\
  spki_oid {| pk_pq := PqKeyModel.D65; pk_pq_bytes := []; pk_trad := RsaPub 3072 [] |} None = Ok 41 /\
  pub_oid {| pk_pq := PqKeyModel.D65; pk_pq_bytes := []; pk_trad := RsaPub 3072 [] |} false = Ok 42.
Proof. split; [intros [H|[H|[H|[]]]]; discriminate H|]. split; [reflexivity|]. split; reflexivity. Qed.

Print Assumptions C41_verify.
Print Assumptions C41_row_unique.
Print Assumptions C41_not_short.
Print Assumptions C41_sign.
Print Assumptions C41_sign_verify.
Print Assumptions C41_representative.
Print Assumptions C41_oid.
Print Assumptions C41_rsa_rounding_refuted.
Print Assumptions C41_default_padding_refuted.
Print Assumptions C41_default_spki_refuted.
