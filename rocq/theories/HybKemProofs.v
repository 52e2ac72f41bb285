(** Proofs about HybKemModel.v. *)
From Coq Require Import String Ascii.
From Verif Require Import Prelude PreludeFacts CompSigModel CompSigProofs CompLoadModel TradKemModel TradKemSpec TradKemProofs HybKemModel HybKemSpec.
From Verif Require PqKeyModel PqKeySpec PqKeyProofs PqKeyMore PqKeyUse MlKemModel MlKemSpec MlKemMore.
Open Scope Z_scope.
Local Notation length := List.length.

(** ** Lists *)
Lemma firstn_app_exact {A} (a b : list A) n : length a = n -> firstn n (a ++ b) = a.
Proof. intros <-. rewrite firstn_app, Nat.sub_diag, firstn_O, app_nil_r. apply firstn_all. Qed.
Lemma skipn_app_exact {A} (a b : list A) n : length a = n -> skipn n (a ++ b) = b.
Proof. intros <-. rewrite skipn_app, Nat.sub_diag, skipn_all. reflexivity. Qed.
Lemma app_eq_len {A} (a b c d : list A) : a ++ b = c ++ d -> length a = length c -> a = c /\ b = d.
Proof.
  revert c. induction a as [|x a IH]; intros [|y c] H L; try discriminate L; [auto|].
  cbn [app] in H. injection H as -> H. cbn [List.length] in L. injection L as L. destruct (IH c H L) as [-> ->]. auto.
Qed.
Lemma app_eq_len_r {A} (a b c d : list A) : a ++ b = c ++ d -> length b = length d -> a = c /\ b = d.
Proof.
  intros H L. apply app_eq_len; [exact H|]. apply (f_equal (@List.length A)) in H. rewrite !app_length in H. lia.
Qed.
Lemma collision_or (H : bytes -> bytes) x y : H x = H y -> collision H \/ x = y.
Proof. intro E. destruct (list_eq_dec Z.eq_dec x y) as [->|N]; [auto|]. left. exists x, y. auto. Qed.

Lemma bind_ok {A B} (r : result A) (f : A -> result B) b : bind r f = Ok b <-> exists a, r = Ok a /\ f a = Ok b.
Proof.
  destruct r as [a|e]; cbn [bind]; split.
  - intro H. exists a. auto.
  - intros (a' & H & H'). congruence.
  - discriminate.
  - intros (a' & H & _). discriminate H.
Qed.

Section Lib.
Variable L : hlib.
Notation TL := (h_trad L).
Notation E := (h_pq L).

(** ** ML-KEM as the post-quantum half *)
Lemma kem_ct_len a : (32 * (MlKemModel.du (PqKeyModel.kem_params a) * MlKemModel.k (PqKeyModel.kem_params a) + MlKemModel.dv (PqKeyModel.kem_params a)))%nat =
  pq_ct_length L (MlKem a).
Proof. destruct a; reflexivity. Qed.

Lemma kem_enc a s k k' m : PqKeySpec.good_env E -> PqKeySpec.seeded E (PqKeyModel.Kem a) s k -> PqKeySpec.same_key k k' ->
  length m = 32%nat -> is_bytes m = true ->
  exists K c, PqKeyModel.kem_encaps E a (PqKeyModel.p_bytes (PqKeyModel.public_key k')) m = Ok (K, c) /\
    length c = pq_ct_length L (MlKem a) /\
    (kem_no_failure E a s (PqKeyModel.p_bytes (PqKeyModel.public_key k')) m -> PqKeyModel.kem_decaps E a (PqKeyModel.k_priv k') c = Ok K).
Proof.
  intros HE [Ls K] (_ & S2 & S3) Lm Bm. rewrite <- S2, <- S3. apply PqKeyUse.kem_seeded in K; [|destruct a; exact Ls]. pose proof HE as (He & _).
  destruct (MlKemMore.decaps_encaps_gen (PqKeyModel.e_kem E) (PqKeyModel.kem_params a) (PqKeyProofs.kem_in a) He _ _ m _ _ K Lm Bm) as (Ks & r & c & H1 & H2 & H3 & H4).
  exists Ks, c. split; [exact H2|]. split; [rewrite H3; apply kem_ct_len|].
  intro N. unfold kem_no_failure in N. cbv zeta in N. rewrite H1 in N. unfold PqKeyModel.kem_decaps. rewrite (H4 N). reflexivity.
Qed.
Lemma kem_correct a s k k' m : PqKeySpec.good_env E -> PqKeySpec.seeded E (PqKeyModel.Kem a) s k -> PqKeySpec.same_key k k' ->
  length m = 32%nat -> is_bytes m = true -> kem_no_failure E a s (PqKeyModel.p_bytes (PqKeyModel.public_key k')) m ->
  pq_correct L (of_kem a k') m.
Proof.
  intros HE S S' Lm Bm N ss ct. unfold pq_encaps, pq_decaps. cbn [of_kem pq_public pp_name ps_name pp_bytes ps_pub ps_priv].
  destruct (kem_enc a s k k' m HE S S' Lm Bm) as (K & c & E1 & E2 & E3). rewrite E1. intro Q. injection Q as Q1 Q2.
  subst ss ct. split; [exact E2|]. rewrite (E3 N). reflexivity.
Qed.

(** ** X-Wing *)
Lemma xwing_encaps_iff k eph m ss ct :
  xwing_encaps L k eph m = Ok (ss, ct) <->
  exists ss_m ct_m ss_x, PqKeyModel.kem_encaps E PqKeyModel.K768 (xp_pq k) m = Ok (ss_m, ct_m) /\
    t_exchange TL X25519 eph (xp_trad k) = Ok ss_x /\
    ct = ct_m ++ t_pub TL X25519 eph /\ ss = xwing_secret L ss_m ss_x (t_pub TL X25519 eph) (xp_trad k).
Proof.
  unfold xwing_encaps. destruct (t_exchange TL X25519 eph (xp_trad k)) as [x|e]; cbn [bind].
  - destruct (PqKeyModel.kem_encaps E PqKeyModel.K768 (xp_pq k) m) as [[a b]|e]; cbn [bind].
    + split.
      * intro H. injection H as H1 H2. exists a, b, x. subst. auto.
      * intros (a' & b' & x' & H1 & H2 & -> & ->). injection H1 as -> ->. injection H2 as ->. reflexivity.
    + split; [discriminate|]. intros (a' & b' & x' & H1 & _). discriminate H1.
  - split; [discriminate|]. intros (a' & b' & x' & _ & H2 & _). discriminate H2.
Qed.

Lemma xwing_decaps_iff k ct ss :
  xwing_decaps L k ct = Ok ss <->
  exists ct_m ct_x rest ss_m ss_x, ct = ct_m ++ ct_x ++ rest /\ length ct_m = 1088%nat /\ length ct_x = 32%nat /\
    PqKeyModel.kem_decaps E PqKeyModel.K768 (PqKeyModel.k_priv (xs_pq k)) ct_m = Ok ss_m /\
    t_exchange TL X25519 (xs_trad k) ct_x = Ok ss_x /\ ss = xwing_secret L ss_m ss_x ct_x (t_pub TL X25519 (xs_trad k)).
Proof.
  unfold xwing_decaps, slice. cbv zeta. rewrite Nat.sub_0_r. change (skipn 0 ct) with ct. change (1120 - 1088)%nat with 32%nat.
  set (cm := firstn 1088 ct). set (cx := firstn 32 (skipn 1088 ct)). split.
  - intro H. rewrite bind_ok in H. destruct H as (ss_m & D & H). rewrite bind_ok in H. destruct H as (q & R & H).
    rewrite bind_ok in H. destruct H as (ss_x & X & H).
    apply read_pub_iff in R. cbn [encoded] in R. destruct R as [R ->].
    assert (H' : ss = xwing_secret L ss_m ss_x cx (t_pub TL X25519 (xs_trad k))) by (injection H as <-; reflexivity).
    clear H. exists cm, cx, (skipn 32 (skipn 1088 ct)), ss_m, ss_x.
    split; [unfold cm, cx; rewrite !firstn_skipn; reflexivity|].
    split; [unfold cm; unfold cx in R; rewrite firstn_length, skipn_length in R; rewrite firstn_length; lia|].
    auto.
  - intros (ct_m & ct_x & rest & ss_m & ss_x & E1 & L1 & L2 & D & X & ->).
    assert (cm = ct_m) as -> by (unfold cm; rewrite E1; apply firstn_app_exact, L1).
    assert (cx = ct_x) as -> by (unfold cx; rewrite E1, skipn_app_exact by exact L1; apply firstn_app_exact, L2).
    rewrite D. cbn [bind read_pub]. rewrite L2. cbn [Nat.eqb bind].
    rewrite X. reflexivity.
Qed.

Lemma xwing_agree seed k eph m ss ct : good_hlib L -> xwing_key L seed k -> length m = 32%nat -> is_bytes m = true ->
  (forall e, expanded L seed e -> kem_no_failure E PqKeyModel.K768 (firstn 64 e) (xp_pq (xwing_public L k)) m) ->
  xwing_encaps L (xwing_public L k) eph m = Ok (ss, ct) -> length ct = 1120%nat /\ xwing_decaps L k ct = Ok ss.
Proof.
  intros G (e & q & Ex & Sd & Sm & Tr) Lm Bm N H.
  apply xwing_encaps_iff in H. destruct H as (ss_m & ct_m & ss_x & H1 & H2 & -> & ->).
  destruct (kem_enc PqKeyModel.K768 _ q (xs_pq k) m (gh_pq _ G) Sd Sm Lm Bm) as (K & c & E1 & E2 & E3).
  cbn [xwing_public xp_pq xp_trad] in *. rewrite E1 in H1. injection H1 as H1a H1b. subst ss_m ct_m.
  specialize (E3 (N e Ex)). change (pq_ct_length L (MlKem PqKeyModel.K768)) with 1088%nat in E2.
  pose proof (gh_pub_len _ G X25519 eph) as P. cbn [std_pub_len] in P.
  split; [rewrite app_length, E2, P; reflexivity|].
  apply xwing_decaps_iff. exists c, (t_pub TL X25519 eph), [], K, ss_x. rewrite app_nil_r.
  split; [reflexivity|]. split; [exact E2|]. split; [exact P|]. split; [exact E3|].
  split; [|reflexivity]. rewrite (g_dh _ (gh_trad _ G)). exact H2.
Qed.

Lemma xwing_total seed k eph m : good_hlib L -> xwing_key L seed k -> length m = 32%nat -> is_bytes m = true ->
  (forall d q, exists x, t_exchange TL X25519 d q = Ok x) ->
  exists ss ct, xwing_encaps L (xwing_public L k) eph m = Ok (ss, ct).
Proof.
  intros G (e & q & Ex & Sd & Sm & Tr) Lm Bm X.
  destruct (kem_enc PqKeyModel.K768 _ q (xs_pq k) m (gh_pq _ G) Sd Sm Lm Bm) as (K & c & E1 & E2 & E3).
  destruct (X eph (xp_trad (xwing_public L k))) as [x Hx]. do 2 eexists. apply xwing_encaps_iff.
  exists K, c, x. split; [exact E1|]. split; [exact Hx|]. split; reflexivity.
Qed.

Lemma xwing_binding k k' ct ct' ss : good_hlib L ->
  xwing_decaps L k ct = Ok ss -> xwing_decaps L k' ct' = Ok ss ->
  collision (h_sha3 L) \/
  (slice 1088 1120 ct = slice 1088 1120 ct' /\ t_pub TL X25519 (xs_trad k) = t_pub TL X25519 (xs_trad k')).
Proof.
  intros G H H'. apply xwing_decaps_iff in H, H'.
  destruct H as (cm & cx & r & sm & sx & E1 & L1 & L2 & _ & _ & E3).
  destruct H' as (cm' & cx' & r' & sm' & sx' & E1' & L1' & L2' & _ & _ & E3').
  assert (Q : xwing_secret L sm sx cx (t_pub TL X25519 (xs_trad k)) = xwing_secret L sm' sx' cx' (t_pub TL X25519 (xs_trad k')))
    by congruence.
  unfold xwing_secret in Q. apply (collision_or (h_sha3 L)) in Q. destruct Q as [C|Q]; [auto|right].
  assert (S : forall a b c : bytes, length a = 1088%nat -> length b = 32%nat -> slice 1088 1120 (a ++ b ++ c) = b).
  { intros a b c La Lb. unfold slice. rewrite skipn_app_exact by exact La. apply firstn_app_exact, Lb. }
  rewrite E1, E1', !S by assumption. rewrite !app_assoc in Q. apply app_eq_len_r in Q; [|reflexivity]. destruct Q as [Q _].
  apply app_eq_len_r in Q; [|rewrite !(gh_pub_len _ G); reflexivity]. destruct Q as [Q P]. split; [|exact P].
  apply app_eq_len_r in Q; [|congruence]. apply Q.
Qed.

(** ** Chempat *)
Lemma chempat_context_iff q c ctx : chempat_context q c = Ok ctx <-> context_of q c ctx.
Proof.
  unfold context_of. split.
  - intro H.
    assert (G : match curve_context c with
                | Some n => chempat_context q c = Ok (lit ("Chempat-" ++ n ++ "-" ++ pq_context q)%string)
                | None => chempat_context q c = Err EKeyError end).
    { destruct c, q as [[]|[] []|[]|]; vm_compute; reflexivity. }
    destruct (curve_context c) as [n|]; [|congruence]. exists n. split; [reflexivity|congruence].
  - intros (n & Hn & ->). destruct c; cbn [curve_context] in Hn; try discriminate Hn; injection Hn as <-;
      destruct q as [[]|[] []|[]|]; vm_compute; reflexivity.
Qed.

Lemma chempat_encaps_iff k priv r m ss ct :
  chempat_encaps L k priv r m = Ok (ss, ct) <->
  exists pq_ss pq_ct trad_ss trad_ct ctx,
    pq_encaps L (cp_pq k) m = Ok (pq_ss, pq_ct) /\
    trad_encaps TL (PDh true (cp_curve k) (cp_trad k)) priv r = Ok (trad_ss, trad_ct) /\
    context_of (pp_name (cp_pq k)) (cp_curve k) ctx /\ ct = trad_ct ++ pq_ct /\
    ss = chempat_secret L trad_ss pq_ss trad_ct pq_ct (pp_bytes (cp_pq k)) (cp_trad k) ctx.
Proof.
  unfold chempat_encaps. rewrite bind_ok. split.
  - intros ([a b] & H1 & H). rewrite bind_ok in H. destruct H as ([c d] & H2 & H). rewrite bind_ok in H. destruct H as (x & H3 & H).
    exists a, b, c, d, x. apply chempat_context_iff in H3. injection H as <- <-. auto.
  - intros (a & b & c & d & x & H1 & H2 & H3 & -> & ->). exists (a, b). split; [exact H1|]. rewrite bind_ok. exists (c, d).
    split; [exact H2|]. apply chempat_context_iff in H3. rewrite H3. reflexivity.
Qed.

(** The number of bytes of the traditional ciphertext that [chempat_decaps] reads. *)
Definition nenc_long (c : curve) : nat := (dh_ct_length c + dh_ct_length c - 1)%nat.
Lemma check_ct_length_iff k ct b :
  chempat_check_ct_length L k ct = Ok b <->
  (b = true /\ length ct = (dh_ct_length (cs_curve k) + pq_ct_length L (ps_name (cs_pq k)))%nat) \/
  (b = false /\ is_ec (cs_curve k) = true /\ length ct = (nenc_long (cs_curve k) + pq_ct_length L (ps_name (cs_pq k)))%nat).
Proof.
  unfold chempat_check_ct_length, nenc_long. cbv zeta. set (n := dh_ct_length (cs_curve k)). set (p := pq_ct_length L (ps_name (cs_pq k))).
  assert (S : startswith "ecdh"%string (trad_name TL (trad_public TL (SDh true (cs_curve k) (cs_trad k)))) = is_ec (cs_curve k)).
  { cbn [trad_public trad_name]. destruct (cs_curve k); reflexivity. }
  rewrite S. assert (2 <= n)%nat by (unfold n; destruct (cs_curve k); vm_compute; lia).
  destruct (Nat.eqb_spec (length ct) (p + n)) as [E1|E1]; cbn [negb].
  - split; [intro H'; injection H' as <-; left; split; [reflexivity|lia]|]. intros [[-> _]|(-> & _ & E2)]; [reflexivity|lia].
  - destruct (is_ec (cs_curve k)); cbn [andb].
    + destruct (Nat.eqb_spec (length ct) (p + n + n - 1)) as [E2|E2].
      * split; [intro H'; injection H' as <-; right; repeat split; lia|]. intros [[-> E3]|(-> & _ & _)]; [lia|reflexivity].
      * split; [discriminate|]. intros [[_ E3]|(_ & _ & E3)]; lia.
    + split; [discriminate|]. intros [[_ E3]|(_ & C & _)]; [lia|discriminate C].
Qed.
Lemma chempat_decaps_iff k ct ss :
  chempat_decaps L k ct = Ok ss <->
  exists trad_ct pq_ct trad_ss pq_ss ctx, ct = trad_ct ++ pq_ct /\
    length pq_ct = pq_ct_length L (ps_name (cs_pq k)) /\
    (length trad_ct = dh_ct_length (cs_curve k) \/ is_ec (cs_curve k) = true /\ length trad_ct = nenc_long (cs_curve k)) /\
    trad_decaps TL (SDh true (cs_curve k) (cs_trad k)) trad_ct = Ok trad_ss /\
    pq_decaps L (cs_pq k) pq_ct = Ok pq_ss /\
    context_of (ps_name (cs_pq k)) (cs_curve k) ctx /\
    ss = chempat_secret L trad_ss pq_ss trad_ct pq_ct (ps_pub (cs_pq k)) (t_pub TL (cs_curve k) (cs_trad k)) ctx.
Proof.
  unfold chempat_decaps. rewrite bind_ok. split.
  - intros (b & H1 & H). cbv zeta in H. set (n := if b then _ else _) in H. rewrite bind_ok in H. destruct H as (ts & H2 & H).
    rewrite bind_ok in H. destruct H as (ps & H3 & H). rewrite bind_ok in H. destruct H as (ctx & H4 & H).
    exists (firstn n ct), (skipn n ct), ts, ps, ctx. apply chempat_context_iff in H4. apply check_ct_length_iff in H1.
    split; [symmetry; apply firstn_skipn|]. unfold nenc_long in H1.
    split; [rewrite skipn_length; unfold n; destruct H1 as [[-> E1]|(-> & _ & E1)]; unfold nenc_long in *; lia|].
    split; [rewrite firstn_length; unfold n; destruct H1 as [[-> E1]|(-> & Ec & E1)]; unfold nenc_long in *; [left; lia|right; split; [exact Ec|lia]]|].
    split; [exact H2|]. split; [exact H3|]. split; [exact H4|]. injection H as <-. reflexivity.
  - intros (tc & pc & ts & ps & ctx & E1 & L1 & L2 & H2 & H3 & H4 & ->). apply chempat_context_iff in H4.
    assert (X : exists b, chempat_check_ct_length L k ct = Ok b /\
              (if b then dh_ct_length (cs_curve k) else (dh_ct_length (cs_curve k) + dh_ct_length (cs_curve k) - 1))%nat = length tc).
    { destruct L2 as [L2|[Ec L2]].
      - exists true. split; [|congruence]. apply check_ct_length_iff. left. split; [reflexivity|]. rewrite E1, app_length. lia.
      - exists false. split; [|unfold nenc_long in L2; congruence]. apply check_ct_length_iff. right.
        split; [reflexivity|]. split; [exact Ec|]. rewrite E1, app_length. lia. }
    destruct X as (b & X1 & X2). exists b. split; [exact X1|]. cbv zeta. rewrite X2, E1.
    rewrite firstn_app_exact, skipn_app_exact by reflexivity. rewrite H2. cbn [bind]. rewrite H3. cbn [bind]. rewrite H4. reflexivity.
Qed.

Lemma trad_ct_len c q priv r ss ct : good_hlib L -> trad_encaps TL (PDh true c q) priv r = Ok (ss, ct) ->
  length ct = std_pub_len c.
Proof.
  intros G. cbn [trad_encaps]. intro H.
  match type of H with dhkem_encaps _ ?eph _ _ = _ => destruct eph as [ce de] end.
  apply dhkem_encaps_iff in H. destruct H as (-> & dh & _ & -> & _). apply (gh_pub_len _ G).
Qed.

Lemma chempat_agree k priv r m ss ct : good_hlib L -> pq_correct L (cs_pq k) m ->
  chempat_encaps L (chempat_public L k) priv r m = Ok (ss, ct) -> chempat_decaps L k ct = Ok ss.
Proof.
  intros G P H. apply chempat_encaps_iff in H. destruct H as (ps & pc & ts & tc & ctx & H1 & H2 & H3 & -> & ->).
  cbn [chempat_public cp_pq cp_curve cp_trad] in *. destruct (P ps pc H1) as [P1 P2].
  apply chempat_decaps_iff. exists tc, pc, ts, ps, ctx. split; [reflexivity|]. split; [exact P1|].
  pose proof (trad_ct_len _ _ _ _ _ _ G H2) as Lt.
  split.
  { destruct H3 as (n & Hn & _). unfold nenc_long. destruct (cs_curve k); cbn [std_pub_len] in Lt; rewrite Lt; try discriminate Hn;
      (left; vm_compute; reflexivity) || (right; vm_compute; split; reflexivity). }
  split; [|split; [exact P2|]; split; [exact H3|reflexivity]].
  change (PDh true (cs_curve k) (t_pub TL (cs_curve k) (cs_trad k))) with (trad_public TL (SDh true (cs_curve k) (cs_trad k))) in H2.
  exact (trad_agree _ (gh_trad _ G) _ _ _ _ _ H2).
Qed.

(** Contexts: 'C' occurs only at the beginning. *)
Definition count_c (b : bytes) : nat := length (filter (Z.eqb 67) b).
Lemma context_form q c ctx : context_of q c ctx -> exists r, ctx = 67 :: r /\ existsb (Z.eqb 67) r = false.
Proof.
  intros (n & Hn & ->). destruct c; cbn [curve_context] in Hn; try discriminate Hn; injection Hn as <-;
    destruct q as [[]|[] []|[]|]; (eexists; split; [vm_compute; reflexivity|vm_compute; reflexivity]).
Qed.
Lemma context_suffix x x' ctx ctx' q c q' c' : context_of q c ctx -> context_of q' c' ctx' -> x ++ ctx = x' ++ ctx' -> x = x' /\ ctx = ctx'.
Proof.
  intros C C' H. apply context_form in C, C'. destruct C as (r & -> & N), C' as (r' & -> & N').
  assert (A : forall x x' r r' : bytes, existsb (Z.eqb 67) r' = false -> x ++ 67 :: r = x' ++ 67 :: r' -> (length x' <= length x)%nat -> length x = length x').
  { clear. intros x x' r r' N H Le. destruct (Nat.eq_dec (length x) (length x')) as [|Ne]; [assumption|exfalso].
    assert (E : skipn (S (length x')) (x ++ 67 :: r) = r').
    { rewrite H, skipn_app, skipn_all2 by lia. replace (S (length x') - length x')%nat with 1%nat by lia. reflexivity. }
    rewrite skipn_app in E. replace (S (length x') - length x)%nat with 0%nat in E by lia. rewrite skipn_O in E.
    rewrite <- E in N. rewrite existsb_app in N. cbn [existsb] in N. rewrite Z.eqb_refl, orb_true_r in N. discriminate N. }
  apply app_eq_len; [exact H|]. destruct (Nat.le_ge_cases (length x') (length x)) as [Le|Le].
  - exact (A x x' r r' N' H Le).
  - symmetry. exact (A x' x r' r N (eq_sym H) Le).
Qed.
Definition all_curves : list curve := [P256; P384; P521; BP256; BP384; BP512; X25519; X448].
Definition all_pq : list pqname :=
  [MlKem PqKeyModel.K512; MlKem PqKeyModel.K768; MlKem PqKeyModel.K1024;
   Frodo F640 true; Frodo F640 false; Frodo F976 true; Frodo F976 false; Frodo F1344 true; Frodo F1344 false;
   McEliece M348864; McEliece M460896; McEliece M6688128; McEliece M6960119; McEliece M8192128; Sntrup761].
Lemma in_all_curves c : In c all_curves.
Proof. destruct c; cbn; tauto. Qed.
Lemma in_all_pq q : In q all_pq.
Proof. destruct q as [[]|[] []|[]|]; cbn; tauto. Qed.
Definition frodo_eqb (a b : frodo) : bool := match a, b with F640, F640 | F976, F976 | F1344, F1344 => true | _, _ => false end.
Definition ctx_code (q : pqname) (c : curve) : string :=
  match curve_context c with Some n => ("Chempat-" ++ n ++ "-" ++ pq_context q)%string | None => ""%string end.
Lemma curve_context_inj c c' n : curve_context c = Some n -> curve_context c' = Some n -> c = c'.
Proof. intros H H'. destruct c; cbn in H; try discriminate H; injection H as <-; destruct c'; cbn in H'; try discriminate H'; reflexivity. Qed.
Lemma lit_inj a b : lit a = lit b -> a = b.
Proof.
  unfold lit. revert b. induction a as [|x a IH]; intros [|y b] H; try discriminate H; [reflexivity|].
  cbn in H. injection H as H1 H2. apply N2Z.inj in H1. assert (x = y) as ->.
  { rewrite <- (ascii_N_embedding x), <- (ascii_N_embedding y), H1. reflexivity. }
  f_equal. apply IH, H2.
Qed.
Lemma curve_ctx_no_dash c n : curve_context c = Some n -> no_dash n = true.
Proof. destruct c; cbn [curve_context]; intro H; try discriminate H; injection H as <-; reflexivity. Qed.
Lemma pq_context_same q q' : pq_context q = pq_context q' <-> same_context_alg q q'.
Proof.
  split; intro H.
  - destruct q as [[]|[] []|[]|], q' as [[]|[] []|[]|]; cbn [pq_context] in H; try discriminate H; cbn [same_context_alg]; reflexivity.
  - destruct q as [a|a b|a|]; destruct q' as [a'|a' b'|a'|]; cbn [same_context_alg] in H; try discriminate H;
      try (injection H as ->; reflexivity); [|reflexivity]. rewrite H. destruct a'; reflexivity.
Qed.
Lemma context_inj q c q' c' ctx : context_of q c ctx -> context_of q' c' ctx -> c = c' /\ same_context_alg q q'.
Proof.
  intros (n & Hn & E1) (n' & Hn' & E2). rewrite E1 in E2. apply lit_inj, app_inv_head_s in E2.
  apply app_dash in E2; [|eapply curve_ctx_no_dash; eassumption|eapply curve_ctx_no_dash; eassumption|right; eexists; reflexivity|right; eexists; reflexivity].
  destruct E2 as [-> E2]. split; [eapply curve_context_inj; eassumption|]. cbn [append] in E2. injection E2 as E2.
  apply pq_context_same, E2.
Qed.

Lemma chempat_binding k k' ct ct' ss : good_hlib L ->
  chempat_decaps L k ct = Ok ss -> chempat_decaps L k' ct' = Ok ss ->
  collision (h_sha3 L) \/
  (ct = ct' /\ cs_curve k = cs_curve k' /\ same_context_alg (ps_name (cs_pq k)) (ps_name (cs_pq k')) /\
   ps_pub (cs_pq k) ++ t_pub TL (cs_curve k) (cs_trad k) = ps_pub (cs_pq k') ++ t_pub TL (cs_curve k') (cs_trad k')).
Proof.
  intros G H H'. apply chempat_decaps_iff in H, H'.
  destruct H as (tc & pc & ts & ps & ctx & -> & L1 & L2 & _ & _ & C & E3).
  destruct H' as (tc' & pc' & ts' & ps' & ctx' & -> & L1' & L2' & _ & _ & C' & E3').
  rewrite E3 in E3'. unfold chempat_secret in E3'. apply (collision_or (h_sha3 L)) in E3'. destruct E3' as [|Q]; [auto|].
  rewrite !app_assoc in Q. apply (context_suffix _ _ _ _ _ _ _ _ C C') in Q. destruct Q as [Q Qc]. subst ctx'.
  destruct (context_inj _ _ _ _ _ C C') as [Ec Eq].
  apply app_eq_len_r in Q; [|rewrite !(gh_sha3 _ G); reflexivity]. destruct Q as [Q Qp].
  apply app_eq_len_r in Q; [|rewrite !(gh_sha3 _ G); reflexivity]. destruct Q as [_ Qt].
  apply (collision_or (h_sha3 L)) in Qp, Qt. destruct Qp as [|Qp]; [auto|]. destruct Qt as [|Qt]; [auto|]. right. auto.
Qed.

(** ** Composite KEM *)
Definition talg_name (t : talg) : string :=
  match t with ADh c => if is_ec c then "ecdh-" ++ curve_name c else curve_name c | ARsa n => "rsa" ++ dec n end%string.
Definition row_name (r : krow) : string := (class_name (kr_dhkem r) ++ "-" ++ pq_name (kr_pq r) ++ "-" ++ talg_name (kr_trad r))%string.
Lemma talg_of_name t : talg_name (talg_of L t) = trad_name TL t.
Proof. destruct t; reflexivity. Qed.
Lemma talg_name_inj t t' : talg_name t = talg_name t' -> t = t'.
Proof.
  destruct t as [c|n], t' as [c'|n']; cbn [talg_name]; intro H.
  - destruct c, c'; try discriminate H; reflexivity.
  - destruct c; discriminate H.
  - destruct c'; discriminate H.
  - apply app_inv_head_s in H. apply dec_inj in H. congruence.
Qed.
Fixpoint strip (p s : string) : option string :=
  match p with
  | EmptyString => Some s
  | String c p' => match s with String d s' => if Ascii.eqb c d then strip p' s' else None | EmptyString => None end
  end.
Lemma strip_app p s : strip p (p ++ s) = Some s.
Proof. induction p as [|c p IH]; [reflexivity|]. cbn [strip append]. rewrite Ascii.eqb_refl. exact IH. Qed.
(** No name of a post-quantum algorithm followed by a hyphen is the beginning of another one. *)
Lemma pq_name_strip q q' s : strip (pq_name q ++ "-")%string (pq_name q' ++ "-" ++ s)%string = if String.eqb (pq_name q) (pq_name q') then Some s else None.
Proof. destruct q as [[]|[] []|[]|], q' as [[]|[] []|[]|]; reflexivity. Qed.
Lemma app_assoc_s (a b c : string) : ((a ++ b) ++ c = a ++ (b ++ c))%string.
Proof. induction a as [|x a IH]; cbn; [reflexivity|]. rewrite IH. reflexivity. Qed.
Lemma pq_name_inj q q' : pq_name q = pq_name q' -> q = q'.
Proof. destruct q as [[]|[] []|[]|], q' as [[]|[] []|[]|]; intro H; try discriminate H; reflexivity. Qed.
Lemma pq_name_app q q' s s' : (pq_name q ++ "-" ++ s = pq_name q' ++ "-" ++ s')%string -> q = q' /\ s = s'.
Proof.
  intro H. assert (X : strip (pq_name q ++ "-")%string (pq_name q ++ "-" ++ s)%string = Some s).
  { rewrite <- app_assoc_s. apply strip_app. }
  rewrite H, pq_name_strip in X. destruct (String.eqb_spec (pq_name q) (pq_name q')) as [Q|]; [|discriminate X].
  apply pq_name_inj in Q. injection X as X. auto.
Qed.
Lemma row_name_inj d q t d' q' t' :
  (class_name d ++ "-" ++ pq_name q ++ "-" ++ talg_name t = class_name d' ++ "-" ++ pq_name q' ++ "-" ++ talg_name t')%string ->
  d = d' /\ q = q' /\ t = t'.
Proof.
  destruct d, d'; cbn [class_name]; intro H; try discriminate H; apply app_inv_head_s in H; cbn [append] in H; injection H as H;
    apply pq_name_app in H; destruct H as [-> H]; apply talg_name_inj in H; auto.
Qed.

(** The table of the code is the table of the rows, in order. *)
Lemma table_rows : COMPOSITE_KEM_NAME_2_OID = map (fun r => (row_name r, kr_oid r)) all_rows.
Proof. vm_compute. reflexivity. Qed.
Lemma get_rows n o rows : get n (map (fun r => (row_name r, kr_oid r)) rows) = Some o ->
  exists r, In r rows /\ n = row_name r /\ o = kr_oid r.
Proof.
  induction rows as [|r rows IH]; cbn [map get]; [discriminate|]. destruct (String.eqb_spec n (row_name r)) as [E1|E1].
  - intro H. injection H as H. exists r. cbn. auto.
  - intro H. destruct (IH H) as (r' & I & H1 & H2). exists r'. cbn. auto.
Qed.
Lemma get_rows_in r rows : (forall a b, In a rows -> In b rows -> row_name a = row_name b -> kr_oid a = kr_oid b) -> In r rows ->
  get (row_name r) (map (fun r => (row_name r, kr_oid r)) rows) = Some (kr_oid r).
Proof.
  induction rows as [|a rows IH]; intros U I; [contradiction|]. cbn [map get].
  destruct (String.eqb_spec (row_name r) (row_name a)) as [E1|E1].
  - f_equal. apply U; [cbn; auto|exact I|congruence].
  - destruct I as [->|I]; [contradiction|]. apply IH; [|exact I]. intros x y Hx Hy. apply U; cbn; auto.
Qed.
Definition zlist_eqb (a b : list Z) : bool := bytes_eqb a b.
Definition row_key (r : krow) : bool * pqname * talg := (kr_dhkem r, kr_pq r, kr_trad r).
Lemma rows_unique a b : In a all_rows -> In b all_rows -> row_name a = row_name b -> kr_oid a = kr_oid b.
Proof.
  assert (T : forallb (fun a => forallb (fun b => implb (String.eqb (row_name a) (row_name b)) (bytes_eqb (kr_oid a) (kr_oid b))) all_rows) all_rows = true)
    by (vm_compute; reflexivity).
  intros Ha Hb H. rewrite forallb_forall in T. specialize (T a Ha). rewrite forallb_forall in T. specialize (T b Hb).
  rewrite H, String.eqb_refl in T. cbn [implb] in T. apply bytes_eqb_eq, T.
Qed.

Lemma comp_oid_iff k o : comp_oid L k = Ok o <-> exists r, key_row L k r /\ o = kr_oid r.
Proof.
  unfold comp_oid, comp_name. rewrite table_rows, <- talg_of_name. split.
  - destruct (get _ _) as [o'|] eqn:Q; cbn [of_opt]; [|discriminate]. intro H. injection H as ->.
    apply get_rows in Q. destruct Q as (r & I & Q & ->). exists r. split; [|reflexivity].
    unfold row_name in Q. apply row_name_inj in Q. destruct Q as (Q1 & Q2 & Q3). repeat split; auto.
  - intros (r & (I & R1 & R2 & R3) & ->). rewrite <- R1, <- R2, <- R3.
    pose proof (get_rows_in r all_rows rows_unique I) as X. exact (f_equal (fun z => of_opt z EInvalidKeyCombination) X).
Qed.
Lemma comp_oid_err k e : comp_oid L k = Err e -> e = EInvalidKeyCombination.
Proof. unfold comp_oid. destruct (get _ _); cbn [of_opt]; congruence. Qed.

Lemma der_rows : forall r, In r all_rows -> is_der_oid (kr_oid r) (der_oid (kr_oid r)).
Proof.
  assert (T : forallb (fun r => match kr_oid r, der_oid (kr_oid r) with
     | a1 :: a2 :: t, x :: l :: body => (x =? 6) && (l =? Z.of_nat (length body)) &&
         match arcs 0 body with Some z => bytes_eqb z (40 * a1 + a2 :: t) | None => false end
     | _, _ => false end) all_rows = true) by (vm_compute; reflexivity).
  intros r I. rewrite forallb_forall in T. specialize (T r I). unfold is_der_oid.
  destruct (kr_oid r) as [|a1 [|a2 t]]; try discriminate T. destruct (der_oid _) as [|x [|l body]]; try discriminate T.
  apply andb_true_iff in T. destruct T as [T T3]. apply andb_true_iff in T. destruct T as [T1 T2].
  apply Z.eqb_eq in T1, T2. destruct (arcs 0 body) as [z|]; [|discriminate T3]. apply bytes_eqb_eq in T3. subst. auto.
Qed.
(** No encoding is the end of another one. *)
Definition ends_with (a b : bytes) : bool := (length b <=? length a)%nat && bytes_eqb (skipn (length a - length b) a) b.
Lemma der_suffix x x' r r' : In r all_rows -> In r' all_rows -> x ++ der_oid (kr_oid r) = x' ++ der_oid (kr_oid r') ->
  x = x' /\ r = r'.
Proof.
  assert (T : forallb (fun a => forallb (fun b => implb (ends_with (der_oid (kr_oid a)) (der_oid (kr_oid b))) (String.eqb (row_name a) (row_name b))) all_rows) all_rows = true)
    by (vm_compute; reflexivity).
  assert (N : forall a b, In a all_rows -> In b all_rows -> row_name a = row_name b -> a = b).
  { intros a b Ha Hb H. pose proof (rows_unique a b Ha Hb H) as O. unfold row_name in H. apply row_name_inj in H. destruct H as (H1 & H2 & H3).
    clear Ha Hb T. destruct a as [a1 a2 a3 a4], b as [b1 b2 b3 b4]. cbn [kr_dhkem kr_pq kr_trad kr_oid] in O, H1, H2, H3. congruence. }
  assert (W : forall x x' r r', In r all_rows -> In r' all_rows -> x ++ der_oid (kr_oid r) = x' ++ der_oid (kr_oid r') ->
    (length x <= length x')%nat -> r = r').
  { intros y y' a b Ha Hb H Le. rewrite forallb_forall in T. specialize (T a Ha). rewrite forallb_forall in T. specialize (T b Hb).
    apply N; [exact Ha|exact Hb|]. pose proof (f_equal (@List.length Z) H) as Hl. rewrite !app_length in Hl.
    unfold ends_with in T. destruct (Nat.leb_spec (length (der_oid (kr_oid b))) (length (der_oid (kr_oid a)))) as [Q|Q]; [|lia].
    assert (X : skipn (length (der_oid (kr_oid a)) - length (der_oid (kr_oid b))) (der_oid (kr_oid a)) = der_oid (kr_oid b)).
    { assert (Y : skipn (length y') (y ++ der_oid (kr_oid a)) = der_oid (kr_oid b)) by (rewrite H; apply skipn_app_exact; reflexivity).
      rewrite skipn_app, skipn_all2 in Y by lia. cbn [app] in Y. rewrite <- Y at 2. f_equal. lia. }
    rewrite X, bytes_eqb_refl in T. cbn [andb implb] in T. apply String.eqb_eq, T. }
  intros I I' H. assert (r = r') as ->.
  { destruct (Nat.le_ge_cases (length x) (length x')) as [Le|Le]; [exact (W _ _ _ _ I I' H Le)|symmetry; exact (W _ _ _ _ I' I (eq_sym H) Le)]. }
  split; [|reflexivity]. apply app_eq_len_r in H; [apply H|reflexivity].
Qed.

Lemma row_in_kdf k r : key_row L k r ->
  kdf_algorithm L (pq_name (pp_name (kp_pq k))) (kp_trad k) =
    match row_kdf r with KSha3 => "sha3_256" | KHmac Sha512 _ => "hmac-sha512" | KHmac _ _ => "hmac-sha256" end%string.
Proof.
  intros (I & _ & R2 & R3). unfold kdf_algorithm, row_kdf. rewrite <- talg_of_name, <- R2, <- R3. clear R2 R3 k.
  assert (T : forallb (fun r => String.eqb (let trad_name := talg_name (kr_trad r) in
     let in_list := existsb (String.eqb (pq_name (kr_pq r))) ["ml-kem-768"; "frodokem-976-aes"; "frodokem-976-shake"]%string in
     if in_list && String.eqb trad_name "x25519" then "sha3_256" else if in_list then "hmac-sha256"
     else if String.eqb trad_name "x448" then "sha3_256" else "hmac-sha512")%string
     (match row_kdf r with KSha3 => "sha3_256" | KHmac Sha512 _ => "hmac-sha512" | KHmac _ _ => "hmac-sha256" end)%string) all_rows = true)
    by (vm_compute; reflexivity).
  rewrite forallb_forall in T. specialize (T r I). apply String.eqb_eq in T. exact T.
Qed.
Lemma row_kdf_cases r : row_kdf r = KSha3 \/ row_kdf r = KHmac Sha256 32 \/ row_kdf r = KHmac Sha512 64.
Proof. unfold row_kdf. destruct (kr_pq r) as [[]|[] b|n|], (kr_trad r) as [[]|n']; auto. Qed.

Lemma comp_combiner_ok k ss ts tc tp cms r : key_row L k r -> comp_oid L k = Ok (kr_oid r) ->
  comp_combiner L k ss ts tc tp cms = Ok (run_kdf L (if cms then KSha3 else row_kdf r) (combiner_input ss ts tc tp (der_oid (kr_oid r)))).
Proof.
  intros Kr Ho. unfold comp_combiner. rewrite Ho. cbn [bind]. cbv zeta. rewrite (row_in_kdf k r Kr).
  destruct (row_kdf_cases r) as [-> |[-> | ->]]; destruct cms; reflexivity.
Qed.
Lemma comp_combiner_iff k ss ts tc tp cms out :
  comp_combiner L k ss ts tc tp cms = Ok out <->
  exists r, key_row L k r /\
    out = run_kdf L (if cms then KSha3 else row_kdf r) (combiner_input ss ts tc tp (der_oid (kr_oid r))).
Proof.
  split.
  - intro H. destruct (comp_oid L k) as [o|e] eqn:Ho; [|unfold comp_combiner in H; rewrite Ho in H; discriminate H].
    pose proof (proj1 (comp_oid_iff k o) Ho) as (r & Kr & ->). exists r. split; [exact Kr|].
    rewrite (comp_combiner_ok k ss ts tc tp cms r Kr Ho) in H. congruence.
  - intros (r & Kr & ->). apply comp_combiner_ok; [exact Kr|]. apply comp_oid_iff. exists r. auto.
Qed.

Lemma comp_encaps_iff k priv r m cms ss ct :
  comp_encaps L k priv r m cms = Ok (ss, ct) <->
  exists ms mc ts tc row, pq_encaps L (kp_pq k) m = Ok (ms, mc) /\ trad_encaps TL (kp_trad k) priv r = Ok (ts, tc) /\
    key_row L k row /\ ct = mc ++ tc /\
    ss = run_kdf L (if cms then KSha3 else row_kdf row) (combiner_input ms ts tc (trad_encode TL (kp_trad k)) (der_oid (kr_oid row))).
Proof.
  unfold comp_encaps. rewrite bind_ok. split.
  - intros ([ms mc] & H1 & H). rewrite bind_ok in H. destruct H as ([ts tc] & H2 & H). rewrite bind_ok in H. destruct H as (s & H3 & H).
    apply comp_combiner_iff in H3. destruct H3 as (row & Kr & ->). injection H as <- <-. exists ms, mc, ts, tc, row. auto.
  - intros (ms & mc & ts & tc & row & H1 & H2 & Kr & -> & ->). exists (ms, mc). split; [exact H1|]. rewrite bind_ok. exists (ts, tc).
    split; [exact H2|]. rewrite bind_ok. eexists. split; [apply comp_combiner_iff; exists row; split; [exact Kr|reflexivity]|reflexivity].
Qed.
Lemma comp_decaps_iff k ct cms ss :
  comp_decaps L k ct cms = Ok ss <->
  exists ms ts row, let n := pq_ct_length L (ps_name (ks_pq k)) in
    pq_decaps L (ks_pq k) (firstn n ct) = Ok ms /\ trad_decaps TL (ks_trad k) (skipn n ct) = Ok ts /\
    key_row L (comp_public L k) row /\
    ss = run_kdf L (if cms then KSha3 else row_kdf row)
           (combiner_input ms ts (skipn n ct) (trad_encode TL (trad_public TL (ks_trad k))) (der_oid (kr_oid row))).
Proof.
  unfold comp_decaps. cbv zeta. rewrite bind_ok. split.
  - intros (ms & H1 & H). rewrite bind_ok in H. destruct H as (ts & H2 & H). apply comp_combiner_iff in H. destruct H as (row & Kr & ->).
    exists ms, ts, row. auto.
  - intros (ms & ts & row & H1 & H2 & Kr & ->). exists ms. split; [exact H1|]. rewrite bind_ok. exists ts. split; [exact H2|].
    apply comp_combiner_iff. exists row. auto.
Qed.

Lemma comp_trad_public b q t : kp_trad (comp_public L (mk_kpriv b q t)) = trad_public TL (ks_trad (mk_kpriv b q t)).
Proof. destruct t as [rfc c d|k], b; reflexivity. Qed.
Lemma comp_agree b q t priv r m cms ss ct : good_hlib L -> pq_correct L q m ->
  let k := mk_kpriv b q t in
  comp_encaps L (comp_public L k) priv r m cms = Ok (ss, ct) -> comp_decaps L k ct cms = Ok ss.
Proof.
  cbv zeta. intros G P H. apply comp_encaps_iff in H. destruct H as (ms & mc & ts & tc & row & H1 & H2 & Kr & -> & ->).
  set (k := mk_kpriv b q t) in *. assert (Eq : kp_pq (comp_public L k) = pq_public q) by reflexivity. rewrite Eq in H1.
  destruct (P ms mc H1) as [P1 P2]. rewrite (comp_trad_public b q t : kp_trad (comp_public L k) = _) in *.
  apply comp_decaps_iff. exists ms, ts, row. cbv zeta. change (ks_pq k) with q.
  rewrite firstn_app_exact, skipn_app_exact by exact P1.
  split; [exact P2|]. split; [exact (trad_agree _ (gh_trad _ G) _ _ _ _ _ H2)|]. split; [exact Kr|reflexivity].
Qed.

(** Binding: the identifier and the traditional ciphertext enter the derivation. *)
Lemma comp_binding k k' ct ct' cms row row' ss :
  key_row L (comp_public L k) row -> key_row L (comp_public L k') row' ->
  cms = true \/ row_kdf row = row_kdf row' ->
  comp_decaps L k ct cms = Ok ss -> comp_decaps L k' ct' cms = Ok ss ->
  let kdf := if cms then KSha3 else row_kdf row in
  let tc := skipn (pq_ct_length L (ps_name (ks_pq k))) ct in
  let tc' := skipn (pq_ct_length L (ps_name (ks_pq k'))) ct' in
  let tp k := trad_encode TL (trad_public TL (ks_trad k)) in
  collision (run_kdf L kdf) \/
  (row = row' /\ (length (tc ++ tp k) = length (tc' ++ tp k') -> tc ++ tp k = tc' ++ tp k')).
Proof.
  intros R R' K H H'. cbv zeta. apply comp_decaps_iff in H, H'. cbv zeta in H, H'.
  destruct H as (ms & ts & r1 & _ & _ & R1 & E1). destruct H' as (ms' & ts' & r1' & _ & _ & R1' & E1').
  assert (U : forall k r r1, key_row L k r -> key_row L k r1 -> r = r1).
  { intros x r r2 (I & A1 & A2 & A3) (I' & B1 & B2 & B3).
    assert (N : row_name r = row_name r2) by (unfold row_name; congruence).
    pose proof (rows_unique _ _ I I' N) as O. clear I I' N. destruct r as [a1 a2 a3 a4], r2 as [b1 b2 b3 b4].
    cbn [kr_dhkem kr_pq kr_trad kr_oid] in *. congruence. }
  rewrite <- (U _ _ _ R R1) in E1. rewrite <- (U _ _ _ R' R1') in E1'. rewrite E1 in E1'.
  assert (Ek : (if cms then KSha3 else row_kdf row') = (if cms then KSha3 else row_kdf row)) by (destruct K as [->| ->]; reflexivity).
  rewrite Ek in E1'. apply (collision_or (run_kdf L (if cms then KSha3 else row_kdf row))) in E1'.
  destruct E1' as [C|Q]; [auto|right]. unfold combiner_input in Q. rewrite !app_assoc in Q.
  apply der_suffix in Q; [|apply R|apply R']. destruct Q as [Q ->]. split; [reflexivity|]. intro Hl.
  rewrite <- !(app_assoc _ _ (trad_encode _ _)) in Q. apply app_eq_len_r in Q; [apply Q|exact Hl].
Qed.

(** The identifier of a private key. *)
Definition listed_size (n : N) : bool := existsb (N.eqb n) [2048; 3072; 4096]%N.
Lemma comp_priv_oid_eq b q t : (forall k, t = SRsa k -> get_rsa_size (t_rsa_bits TL (t_rsa_pub TL k)) = t_rsa_bits TL (t_rsa_pub TL k)) ->
  comp_priv_oid L (mk_kpriv b q t) = comp_oid L (comp_public L (mk_kpriv b q t)).
Proof.
  intro H. unfold comp_priv_oid, comp_oid, comp_name. destruct t as [rfc c d|k]; [destruct b; reflexivity|].
  specialize (H k eq_refl). cbn [mk_kpriv ks_trad ks_dhkem ks_pq comp_public mk_kpub trad_public kp_trad kp_pq kp_dhkem pq_public pp_name trad_name].
  rewrite H. reflexivity.
Qed.

(** Identifiers of Chempat keys. *)
Definition crow_name (r : pqname * curve * list Z) : string :=
  let '(q, c, _) := r in ("chempat-" ++ pq_name q ++ "-" ++ talg_name (ADh c))%string.
Lemma ctable_rows : CHEMPAT_NAME_2_OID = map (fun r => (crow_name r, snd r)) chempat_rows.
Proof. vm_compute. reflexivity. Qed.
Lemma crow_name_inj q c o q' c' o' : crow_name (q, c, o) = crow_name (q', c', o') -> q = q' /\ c = c'.
Proof.
  unfold crow_name. intro H. apply app_inv_head_s in H. apply pq_name_app in H. destruct H as [-> H].
  apply talg_name_inj in H. injection H as ->. auto.
Qed.
Lemma cget_in n o rows : get n (map (fun r => (crow_name r, snd r)) rows) = Some o -> exists r, In r rows /\ n = crow_name r /\ o = snd r.
Proof.
  induction rows as [|r rows IH]; cbn [map get]; [discriminate|]. destruct (String.eqb_spec n (crow_name r)) as [E1|E1].
  - intro H. injection H as H. exists r. cbn [In]. auto.
  - intro H. destruct (IH H) as (r' & I & H1 & H2). exists r'. cbn [In]. auto.
Qed.
Lemma crows_nodup a b : In a chempat_rows -> In b chempat_rows -> crow_name a = crow_name b -> snd a = snd b.
Proof.
  assert (T : forallb (fun a => forallb (fun b => implb (String.eqb (crow_name a) (crow_name b)) (bytes_eqb (snd a) (snd b))) chempat_rows) chempat_rows = true)
    by (vm_compute; reflexivity).
  intros Ha Hb H. rewrite forallb_forall in T. specialize (T a Ha). rewrite forallb_forall in T. specialize (T b Hb).
  rewrite H, String.eqb_refl in T. cbn [implb] in T. apply bytes_eqb_eq, T.
Qed.
Lemma in_cget r rows : (forall a b, In a rows -> In b rows -> crow_name a = crow_name b -> snd a = snd b) -> In r rows ->
  get (crow_name r) (map (fun r => (crow_name r, snd r)) rows) = Some (snd r).
Proof.
  induction rows as [|a rows IH]; intros U I; [contradiction|]. cbn [map get].
  destruct (String.eqb_spec (crow_name r) (crow_name a)) as [E1|E1].
  - f_equal. apply U; [cbn [In]; auto|exact I|congruence].
  - destruct I as [->|I]; [contradiction|]. apply IH; [|exact I]. intros x y Hx Hy. apply U; cbn [In]; auto.
Qed.
Lemma chempat_oid_iff k o : chempat_oid L k = Ok o <-> In (pp_name (cp_pq k), cp_curve k, o) chempat_rows.
Proof.
  unfold chempat_oid. change (chempat_name L k) with (crow_name (pp_name (cp_pq k), cp_curve k, [])). rewrite ctable_rows. split.
  - destruct (get _ _) as [o'|] eqn:Q; cbn [of_opt]; [|discriminate]. intro H. injection H as ->.
    apply cget_in in Q. destruct Q as ([[q c] o'] & I & Q & ->). apply crow_name_inj in Q. destruct Q as [-> ->]. exact I.
  - intro I. pose proof (in_cget _ _ crows_nodup I) as X. cbn [snd] in X.
    exact (f_equal (fun z => of_opt z EInvalidKeyCombination) X).
Qed.

(** ** X-Wing keys *)
Lemma xwing_expand_ok seed k : xwing_expand L seed = Ok k -> xwing_key L seed k /\ xs_seed k = Some seed /\ length (xs_trad k) = 32%nat.
Proof.
  unfold xwing_expand. cbv zeta. intro H.
  assert (X : (length seed =? 32)%nat = true \/ (length seed =? 32)%nat = false) by (destruct (length seed =? 32)%nat; auto).
  rewrite bind_ok in H. destruct H as (u & Hg & H). rewrite bind_ok in H. destruct H as (q & Hq & H). rewrite bind_ok in H. destruct H as (t & Ht & H).
  set (e := if (length seed =? 32)%nat then h_shake96 L seed else seed) in *.
  assert (Le : length e = 96%nat). { unfold guard in Hg. destruct (Nat.eqb_spec (length e) 96); [assumption|discriminate Hg]. }
  assert (S : slice 64 96 e = skipn 64 e). { unfold slice. apply firstn_all2. rewrite skipn_length. lia. }
  rewrite S in Ht. unfold x25519_priv in Ht. destruct (Nat.eqb_spec (length (skipn 64 e)) 32) as [Lt|]; [|discriminate Ht]. injection Ht as <-.
  assert (L64 : length (firstn 64 e) = 64%nat) by (rewrite firstn_length; lia).
  injection H as <-. cbn [xs_seed xs_trad]. split; [|auto].
  exists e, q. cbn [xs_pq xs_trad]. split.
  { unfold expanded, e. destruct X as [X|X]; rewrite X.
    - apply Nat.eqb_eq in X. left. auto.
    - right. split; [|reflexivity]. unfold e in Le. rewrite X in Le. exact Le. }
  split; [|split; [repeat split|reflexivity]].
  split; [exact L64|]. unfold PqKeyModel.kem_from_private_bytes in Hq. rewrite L64 in Hq. exact Hq.
Qed.
Lemma xwing_seed_ok seed k : xwing_from_seed L seed = Ok k -> xwing_key L seed k.
Proof.
  intro H. unfold xwing_from_seed in H. destruct (_ || _)%bool; [|discriminate H]. exact (proj1 (xwing_expand_ok _ _ H)).
Qed.
End Lib.
