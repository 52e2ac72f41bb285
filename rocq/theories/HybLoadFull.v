(** Loading and saving X-Wing keys; the structures. *)
From Coq Require Import String Ascii NArith.
From Verif Require Import Prelude PreludeFacts CompSigModel CompSigProofs CompLoadModel TradKemModel TradKemSpec TradKemProofs HybKemModel HybKemSpec HybKemProofs HybLoadModel HybLoadSpec HybLoadProofs HybLoadMore.
From Verif Require PqKeyModel PqKeySpec PqKeyProofs PqKeyMore.
Open Scope Z_scope.
Local Notation length := List.length.

Section Lib.
Variable L : hlib.
Variable K : klib.
Notation TL := (h_trad L).
Notation E := (h_pq L).
Hypothesis GL : good_hlib L.
Hypothesis GK : good_klib K.

(** ** X-Wing *)
Lemma x25519_priv_ok b t : x25519_priv b = Ok t <-> t = b /\ length b = 32%nat.
Proof. unfold x25519_priv. destruct (Nat.eqb_spec (length b) 32); split; [intro H; injection H as <-; auto|intros [-> _]; reflexivity|discriminate|intros [_ ?]; contradiction]. Qed.
Lemma kem_seed_ok b q : length b = 64%nat -> PqKeyModel.kem_from_private_bytes E PqKeyModel.K768 b = Ok q <-> PqKeySpec.seeded E (PqKeyModel.Kem PqKeyModel.K768) b q.
Proof.
  intro Le. unfold PqKeyModel.kem_from_private_bytes, PqKeySpec.seeded. rewrite Le. change (PqKeySpec.std_seed (PqKeyModel.Kem PqKeyModel.K768)) with 64%nat.
  change (64 =? 64)%nat with true. cbv iota. cbn [PqKeyModel.from_seed]. tauto.
Qed.
Lemma expanded_len seed e : expanded L seed e -> length e = 96%nat.
Proof using GL. intros [[_ ->]|[H ->]]; [apply (gh_shake L GL)|exact H]. Qed.
Lemma expand_iff seed k : xwing_expand L seed = Ok k <-> xwing_made L seed (Some seed) k.
Proof using GL.
  unfold xwing_expand, xwing_made. cbv zeta. set (e := if (length seed =? 32)%nat then h_shake96 L seed else seed).
  assert (Ex : length e = 96%nat -> expanded L seed e).
  { unfold e, expanded. destruct (Nat.eqb_spec (length seed) 32); auto. }
  assert (Un : forall e', expanded L seed e' -> e' = e).
  { intros e' [[H ->]|[H ->]]; unfold e; rewrite H; reflexivity. }
  assert (S : length e = 96%nat -> slice 64 96 e = skipn 64 e /\ length (skipn 64 e) = 32%nat /\ length (firstn 64 e) = 64%nat).
  { intro H. unfold slice. rewrite skipn_length, firstn_length, firstn_all2 by (rewrite skipn_length; lia). repeat split; lia. }
  split.
  - rewrite bind_ok. intros (u & Hg & H). rewrite guard_ok in Hg. apply Nat.eqb_eq in Hg. destruct (S Hg) as (S1 & S2 & S3).
    rewrite bind_ok in H. destruct H as (q & Hq & H). rewrite bind_ok in H. destruct H as (t & Ht & H). rewrite S1 in Ht.
    apply x25519_priv_ok in Ht. destruct Ht as [-> _]. injection H as <-. exists e, q. split; [auto|]. split; [apply kem_seed_ok; assumption|reflexivity].
  - intros (e' & q & Hx & Hs & ->). pose proof (expanded_len _ _ Hx) as Le. apply Un in Hx. subst e'. destruct (S Le) as (S1 & S2 & S3).
    rewrite Le. cbn [Nat.eqb guard bind]. pose proof (proj2 (kem_seed_ok _ q S3) Hs) as P. rewrite P. cbn [bind]. rewrite S1.
    pose proof (proj2 (x25519_priv_ok (skipn 64 e) (skipn 64 e)) (conj eq_refl S2)) as P2. rewrite P2. reflexivity.
Qed.
Lemma made_raw seed s k : xwing_made L seed s k -> length (PqKeyModel.k_priv (xs_pq k)) = 2400%nat /\ length (xs_trad k) = 32%nat /\
  length (PqKeyModel.p_bytes (PqKeyModel.public_key (xs_pq k))) = 1184%nat.
Proof using GL.
  intros (e & q & He & Hq & ->). apply expanded_len in He. destruct (of_kem_facts L GL _ _ _ Hq) as (A & B & _).
  cbn [xs_pq xs_trad]. rewrite skipn_length, He. auto.
Qed.
Lemma made_app s r x k sd : length s = 32%nat -> length r = 2400%nat -> length x = 32%nat ->
  xwing_made L s sd k -> r ++ x = PqKeyModel.k_priv (xs_pq k) ++ xs_trad k -> r = PqKeyModel.k_priv (xs_pq k) /\ x = xs_trad k.
Proof using GL. intros _ Lr _ M H. destruct (made_raw _ _ _ M) as (A & _). apply app_eq_len in H; [exact H|congruence]. Qed.
Lemma kem_raw_ok r : length r = 2400%nat -> PqKeyModel.kem_from_private_bytes E PqKeyModel.K768 r =
  Ok {| PqKeyModel.k_alg := PqKeyModel.Kem PqKeyModel.K768; PqKeyModel.k_priv := r; PqKeyModel.k_pub := None; PqKeyModel.k_seed := None |}.
Proof. intro H. unfold PqKeyModel.kem_from_private_bytes. rewrite H. reflexivity. Qed.

Lemma xwing_private_iff d k : xwing_from_private L d = Ok k <-> xwing_field L d k.
Proof using GL.
  unfold xwing_field. split.
  - unfold xwing_from_private. destruct (Nat.eqb_spec (length d) 96) as [L96|N96].
    + intro H. right. left. split; [exact L96|]. rewrite bind_ok in H. destruct H as (q & Hq & H). rewrite bind_ok in H. destruct H as (t & Ht & H).
      apply x25519_priv_ok in Ht. destruct Ht as [-> _]. injection H as <-. exists d, q. split; [right; auto|]. split; [|reflexivity].
      apply kem_seed_ok; [rewrite firstn_length; lia|exact Hq].
    + destruct (Nat.eqb_spec (length d) 32) as [L32|N32].
      { intro H. left. split; [exact L32|]. apply expand_iff. exact H. }
      destruct (Nat.eqb_spec (length d) 2432) as [Lr|Nr]; cbn [negb andb].
      * assert (Hb : (length d =? 2464)%nat = false) by (apply Nat.eqb_neq; lia). rewrite Hb. cbv zeta. cbn [bind].
        rewrite bind_ok. intros (t & Ht & H). apply x25519_priv_ok in Ht. destruct Ht as [-> Lx].
        assert (L2 : length (firstn 2400 d) = 2400%nat) by (rewrite firstn_length; lia). rewrite (kem_raw_ok _ L2) in H. cbn [bind] in H. injection H as <-.
        right. right. left. exists (firstn 2400 d), (skipn 2400 d). split; [exact L2|]. split; [exact Lx|]. split; [symmetry; apply firstn_skipn|reflexivity].
      * destruct (Nat.eqb_spec (length d) 2464) as [Lb|Nb]; cbn [negb]; [|discriminate]. cbv zeta. rewrite bind_ok. intros (sk & Hs & H).
        rewrite bind_ok in Hs. destruct Hs as (s & Hs & Hs'). injection Hs' as <-. apply expand_iff in Hs.
        rewrite bind_ok in H. destruct H as (t & Ht & H). apply x25519_priv_ok in Ht. destruct Ht as [-> Lx].
        assert (L2 : length (slice 32 2432 d) = 2400%nat) by (unfold slice; rewrite firstn_length, skipn_length; lia).
        rewrite (kem_raw_ok _ L2) in H. cbn [bind] in H. destruct (bytes_eqb _ _) eqn:Q; [|discriminate H]. injection H as <-.
        apply bytes_eqb_eq in Q. unfold xwing_raw in Q. cbn [xs_pq xs_trad PqKeyModel.k_priv] in Q.
        right. right. right. exists (firstn 32 d). split; [rewrite firstn_length; lia|]. split; [exact Hs|]. rewrite Q.
        rewrite <- (firstn_skipn 32 d) at 1. f_equal. unfold slice. change (2432 - 32)%nat with 2400%nat. rewrite <- (firstn_skipn 2400 (skipn 32 d)) at 1. f_equal.
        rewrite skipn_add. reflexivity.
  - intros [[Le H]|[[Le H]|[(r & x & Lr & Lx & -> & ->)|(s & Ls & M & ->)]]].
    + unfold xwing_from_private. rewrite Le. cbn [Nat.eqb]. apply expand_iff. exact H.
    + unfold xwing_from_private. rewrite Le. cbn [Nat.eqb]. destruct H as (e & q & He & Hq & ->).
      assert (e = d). { destruct He as [[C _]|[_ ->]]; [rewrite Le in C; discriminate C|reflexivity]. } subst e.
      assert (L6 : length (firstn 64 d) = 64%nat) by (rewrite firstn_length; lia). pose proof (proj2 (kem_seed_ok _ _ L6) Hq) as P. rewrite P. cbn [bind].
      assert (L3 : length (skipn 64 d) = 32%nat) by (rewrite skipn_length; lia). pose proof (proj2 (x25519_priv_ok _ _) (conj eq_refl L3)) as P2. rewrite P2. reflexivity.
    + assert (Ld : length (r ++ x) = 2432%nat) by (rewrite app_length; lia).
      unfold xwing_from_private. rewrite Ld. change (2432 =? 96)%nat with false. change (2432 =? 32)%nat with false. change (2432 =? 2432)%nat with true.
      change (2432 =? 2464)%nat with false. cbn [negb andb bind]. cbv zeta. rewrite (skipn_app_exact r x _ Lr), (firstn_app_exact r x _ Lr).
      pose proof (proj2 (x25519_priv_ok _ _) (conj eq_refl Lx)) as P2. rewrite P2. cbn [bind]. rewrite (kem_raw_ok _ Lr). reflexivity.
    + destruct (made_raw _ _ _ M) as (A & B & _). set (r := PqKeyModel.k_priv (xs_pq k)) in *. set (x := xs_trad k) in *.
      assert (Ld : length (s ++ r ++ x) = 2464%nat) by (rewrite !app_length; lia).
      unfold xwing_from_private. rewrite Ld. change (2464 =? 96)%nat with false. change (2464 =? 32)%nat with false. change (2464 =? 2432)%nat with false.
      change (2464 =? 2464)%nat with true. cbn [negb andb]. cbv zeta. rewrite (firstn_app_exact s _ _ Ls).
      pose proof (proj2 (expand_iff s k) M) as P. rewrite P. cbn [bind].
      assert (S1 : skipn 2432 (s ++ r ++ x) = x). { rewrite app_assoc. apply skipn_app_exact. rewrite app_length. lia. }
      assert (S2 : slice 32 2432 (s ++ r ++ x) = r). { unfold slice. rewrite (skipn_app_exact s _ _ Ls). change (2432 - 32)%nat with 2400%nat. apply firstn_app_exact. exact A. }
      rewrite S1, S2. pose proof (proj2 (x25519_priv_ok _ _) (conj eq_refl B)) as P2. rewrite P2. cbn [bind]. rewrite (kem_raw_ok _ A). cbn [bind].
      unfold xwing_raw. cbn [xs_pq xs_trad PqKeyModel.k_priv]. fold r. fold x. rewrite bytes_eqb_refl. reflexivity.
Qed.
Lemma xwing_public_iff d p : xwing_from_public L d = Ok p <->
  d = xp_pq p ++ xp_trad p /\ length (xp_pq p) = 1184%nat /\ length (xp_trad p) = 32%nat.
Proof.
  unfold xwing_from_public. cbv zeta. split.
  - rewrite bind_ok. intros (u & Hg & H). rewrite guard_ok in Hg. apply Nat.eqb_eq in Hg. rewrite bind_ok in H. destruct H as (t & Ht & H).
    apply read_pub_iff in Ht. cbn [is_ec] in Ht. destruct Ht as [-> Lt]. rewrite bind_ok in H. destruct H as (q & Hq & H).
    assert (P : p = {| xp_pq := PqKeyModel.p_bytes q; xp_trad := skipn 1184 d |}) by congruence. subst p. cbn [xp_pq xp_trad].
    unfold PqKeyModel.from_public_bytes in Hq. rewrite bind_ok in Hq. destruct Hq as (u' & _ & Hq).
    assert (Q : PqKeyModel.p_bytes q = firstn 1184 d) by (apply (f_equal (fun r => match r with Ok x => PqKeyModel.p_bytes x | _ => [] end)) in Hq; symmetry; exact Hq).
    rewrite Q. split; [symmetry; apply firstn_skipn|]. rewrite firstn_length. split; [lia|exact Lt].
  - intros (-> & A & B). rewrite app_length, A, B. cbn [Nat.add]. rewrite (firstn_app_exact _ _ _ A), (skipn_app_exact _ _ _ A).
    change (1216 =? 1216)%nat with true. cbn [guard bind].
    pose proof (proj2 (HybLoadProofs.read_pub_iff L X25519 (xp_trad p) (xp_trad p)) (conj eq_refl B)) as P. rewrite P. cbn [bind].
    unfold PqKeyModel.from_public_bytes. rewrite A. change (PqKeyModel.pub_size (PqKeyModel.Kem PqKeyModel.K768)) with 1184%nat. change (1184 =? 1184)%nat with true.
    cbn [guard bind]. destruct p. reflexivity.
Qed.
Lemma field_pub_len d k : xwing_field L d k -> length (xp_pq (xwing_public L k)) = 1184%nat /\ length (xp_trad (xwing_public L k)) = 32%nat.
Proof using GL.
  intro H. split; [|cbn [xwing_public xp_trad]; apply (gh_pub_len L GL)]. cbn [xwing_public xp_pq].
  destruct H as [[_ H]|[[_ H]|[(r & x & Lr & _ & _ & ->)|(s & _ & H & _)]]]; try (apply made_raw in H; apply H).
  cbn [xs_pq PqKeyModel.public_key PqKeyModel.p_bytes PqKeyModel.k_pub PqKeyModel.k_alg PqKeyModel.k_priv]. unfold slice.
  rewrite firstn_length, skipn_length, Lr. reflexivity.
Qed.
Lemma load_xwing_iff d pub k : load_xwing L d pub = Ok k <-> xwing_field L d k /\ (pub = None \/ pub = Some (xwing_public_bytes (xwing_public L k))).
Proof using GL.
  unfold load_xwing. rewrite bind_ok. destruct pub as [b|]; split.
  - intros (k' & Hk & H). apply xwing_private_iff in Hk. rewrite bind_ok in H. destruct H as (p & Hp & H). rewrite bind_ok in H. destruct H as (u & Hu & H).
    rewrite guard_ok in Hu. injection H as <-. apply bytes_eqb_eq in Hu. apply xwing_public_iff in Hp. split; [exact Hk|]. right. rewrite <- Hu. f_equal. apply Hp.
  - intros [Hf [H|H]]; [discriminate H|]. injection H as ->. exists k. split; [apply xwing_private_iff; exact Hf|]. destruct (field_pub_len _ _ Hf) as [A B].
    pose proof (proj2 (xwing_public_iff (xwing_public_bytes (xwing_public L k)) (xwing_public L k)) (conj eq_refl (conj A B))) as P. rewrite P. cbn [bind].
    rewrite bytes_eqb_refl. reflexivity.
  - intros (k' & Hk & H). injection H as <-. apply xwing_private_iff in Hk. auto.
  - intros [Hf _]. exists k. split; [apply xwing_private_iff; exact Hf|reflexivity].
Qed.
(** Saving the key of a seed. *)
Lemma xwing_saved seed k t : xwing_made L seed (Some seed) k ->
  xwing_save t k = Ok (match t with PqKeyModel.SEED => seed | PqKeyModel.RAW => xwing_raw k | PqKeyModel.SEED_AND_RAW => seed ++ xwing_raw k end).
Proof using GL.
  intro M. pose proof M as (e & q & He & Hq & ->). unfold xwing_save.
  destruct (PqKeyMore.save_total E (gh_pq L GL) _ _ q t (proj1 Hq) (proj2 Hq)) as [y Hy]. cbn [xs_pq]. rewrite Hy. cbn [bind]. destruct t; reflexivity.
Qed.
Lemma raw_field k : length (PqKeyModel.k_priv (xs_pq k)) = 2400%nat -> length (xs_trad k) = 32%nat ->
  xwing_field L (xwing_raw k) {| xs_pq := {| PqKeyModel.k_alg := PqKeyModel.Kem PqKeyModel.K768; PqKeyModel.k_priv := PqKeyModel.k_priv (xs_pq k);
    PqKeyModel.k_pub := None; PqKeyModel.k_seed := None |}; xs_trad := xs_trad k; xs_seed := None |}.
Proof. intros A B. right. right. left. exists (PqKeyModel.k_priv (xs_pq k)), (xs_trad k). auto. Qed.
Lemma made_same seed s k : xwing_made L seed s k -> same_xwing k {| xs_pq := {| PqKeyModel.k_alg := PqKeyModel.Kem PqKeyModel.K768; PqKeyModel.k_priv := PqKeyModel.k_priv (xs_pq k);
    PqKeyModel.k_pub := None; PqKeyModel.k_seed := None |}; xs_trad := xs_trad k; xs_seed := None |}.
Proof using GL.
  intros (e & q & He & Hq & ->). split; [|reflexivity]. cbn [xs_pq].
  destruct (PqKeyProofs.inv_seed E (gh_pq L GL) _ _ _ (proj2 Hq)) as [(A & B & C & D) _]. destruct (D None) as (k0 & H & S & _).
  cbn [PqKeyModel.new_key PqKeyModel.kem_new] in H. injection H as <-. exact S.
Qed.
Lemma xwing_roundtrip seed k t : length seed = 32%nat -> xwing_made L seed (Some seed) k ->
  exists d k', xwing_save t k = Ok d /\ same_xwing k k' /\ xs_seed k' = (match t with PqKeyModel.RAW => None | _ => Some seed end) /\
    load_xwing L d None = Ok k' /\ load_xwing L d (Some (xwing_public_bytes (xwing_public L k))) = Ok k'.
Proof using GL.
  intros Ls M. pose proof (xwing_saved seed k t M) as Sv. destruct (made_raw _ _ _ M) as (A & B & _).
  assert (F : exists k', xwing_field L (match t with PqKeyModel.SEED => seed | PqKeyModel.RAW => xwing_raw k | PqKeyModel.SEED_AND_RAW => seed ++ xwing_raw k end) k' /\
    same_xwing k k' /\ xs_seed k' = (match t with PqKeyModel.RAW => None | _ => Some seed end)).
  { assert (S0 : same_xwing k k) by (split; [repeat split|reflexivity]). assert (Sd : xs_seed k = Some seed) by (destruct M as (? & ? & _ & _ & ->); reflexivity).
    destruct t.
    - exists k. split; [left; auto|auto].
    - eexists. split; [apply raw_field; assumption|]. split; [apply (made_same _ _ _ M)|reflexivity].
    - exists k. split; [|auto]. right. right. right. exists seed. auto. }
  destruct F as (k' & F1 & F2 & F3).
  assert (P : xwing_public_bytes (xwing_public L k) = xwing_public_bytes (xwing_public L k')).
  { destruct F2 as [(_ & _ & F2) F4]. unfold xwing_public_bytes, xwing_public. cbn [xp_pq xp_trad]. rewrite F2, F4. reflexivity. }
  eexists. exists k'. split; [exact Sv|]. split; [exact F2|]. split; [exact F3|]. split; apply load_xwing_iff; (split; [exact F1|]); [auto|right; rewrite P; reflexivity].
Qed.
(** With a seed of 96 bytes the first form forgets the seed and the last one is refused. *)
Lemma xwing_long seed k : length seed = 96%nat -> xwing_made L seed (Some seed) k ->
  (exists d, xwing_save PqKeyModel.SEED k = Ok d /\ load_xwing L d None = Ok {| xs_pq := xs_pq k; xs_trad := xs_trad k; xs_seed := None |}) /\
  (exists d, xwing_save PqKeyModel.SEED_AND_RAW k = Ok d /\ forall pub, load_xwing L d pub = Err EInvalidKeyData).
Proof using GL.
  intros Ls M. split.
  - eexists. split; [apply (xwing_saved seed k PqKeyModel.SEED M)|]. apply load_xwing_iff. split; [|auto]. right. left. split; [exact Ls|].
    destruct M as (e & q & He & Hq & ->). exists e, q. auto.
  - eexists. split; [apply (xwing_saved seed k PqKeyModel.SEED_AND_RAW M)|]. intro pub. destruct (made_raw _ _ _ M) as (A & B & _).
    assert (Ld : length (seed ++ xwing_raw k) = 2528%nat) by (unfold xwing_raw; rewrite !app_length; lia).
    unfold load_xwing, xwing_from_private. rewrite Ld. reflexivity.
Qed.
(** Without a seed only the raw form can be written. *)
Lemma xwing_no_seed k t : xs_seed k = None -> t <> PqKeyModel.RAW -> forall d, xwing_save t k <> Ok d.
Proof.
  intros H N d. unfold xwing_save, xwing_numbers. rewrite H. destruct (PqKeyModel.save_private _ _); cbn [bind]; [|discriminate].
  destruct t; [discriminate|contradiction|discriminate].
Qed.

(** ** SubjectPublicKeyInfo *)
Lemma load_spki_iff o d k : load_spki L K o d = Ok k <-> spki_field L K o d k.
Proof.
  split.
  - unfold load_spki. destruct (bytes_eqb o XWING_OID) eqn:X.
    + rewrite bind_ok. intros (p & Hp & H). injection H as <-. apply bytes_eqb_eq in X. apply xwing_public_iff in Hp. cbn [spki_field]. split; [exact X|exact Hp].
    + destruct (name_of o COMPOSITE_KEM_NAME_2_OID) as [n|] eqn:N.
      * rewrite bind_ok. intros (p & Hp & H). injection H as <-. apply comp_of_name in N. destruct N as (r & I & -> & _).
        apply (comp_public_iff L K r d p I) in Hp. destruct Hp as (b & rest & t & -> & Le & Ht & ->). cbn [spki_field kp_pq kp_dhkem kp_trad pp_bytes pp_name].
        exists r, rest, t. auto 10.
      * destruct (name_of o CHEMPAT_NAME_2_OID) as [n'|] eqn:N'; [|discriminate]. rewrite bind_ok. intros (p & Hp & H). injection H as <-.
        apply chempat_of_name in N'. destruct N' as ([[q c] o'] & I & Eo & ->). cbn [snd] in Eo. subst o'.
        apply (chempat_public_iff L K q c o d p I) in Hp. destruct Hp as (b & rest & x & -> & Le & Hx & ->). cbn [spki_field cp_pq cp_curve cp_trad pp_bytes pp_name].
        exists rest. auto.
  - destruct k as [p|p|p]; cbn [spki_field].
    + intros (-> & H). unfold load_spki. change (bytes_eqb _ XWING_OID) with true. cbv iota. apply bind_ok. exists p. split; [apply xwing_public_iff; exact H|reflexivity].
    + intros (rest & I & -> & Le & Hx). unfold load_spki. pose proof (chempat_not_xwing _ I) as X. pose proof (comp_not_chempat _ I) as N. pose proof (chempat_name_of _ I) as N'.
      cbn [snd] in X, N, N'. rewrite X, N, N'. apply bind_ok. exists p. split; [|reflexivity]. apply (chempat_public_iff L K _ _ o _ p I).
      exists (pp_bytes (cp_pq p)), rest, (cp_trad p). destruct p as [[pn pb] c x]. auto.
    + intros (r & rest & t & I & -> & -> & Nq & Nd & Le & Ht & Et). unfold load_spki. rewrite (comp_not_xwing r I), (comp_name_of r I). apply bind_ok. exists p.
      split; [|reflexivity]. apply (comp_public_iff L K r _ p I). exists (pp_bytes (kp_pq p)), rest, t. split; [reflexivity|]. split; [exact Le|]. split; [exact Ht|].
      destruct p as [b [pn pb] pt]. cbn [kp_pq kp_dhkem kp_trad pp_bytes pp_name] in *. rewrite Et, Nq, Nd. reflexivity.
Qed.
Lemma spki_oid o d k : spki_field L K o d k -> pub_oid L k = Ok o.
Proof.
  destruct k as [p|p|p]; cbn [spki_field pub_oid].
  - intros (-> & _). reflexivity.
  - intros (rest & I & _). apply chempat_oid_iff. exact I.
  - intros (r & rest & t & I & -> & -> & Nq & Nd & Le & Ht & Et). apply comp_oid_iff. exists r. split; [|reflexivity]. split; [exact I|]. split; [exact Nd|].
    split; [exact Nq|]. rewrite Et. pose proof (trad_pub_half_talg L K _ _ _ Ht) as T. destruct t; exact (eq_sym T).
Qed.

(** ** OneAsymmetricKey *)
Lemma load_oak_iff o v d pub k : is_bytes d = true ->
  load_oak L K o v d pub = Ok k <-> (v = 1 \/ (v = 0 /\ pub = None)) /\ oak_field L K o d pub k.
Proof using GL GK.
  intro B. unfold load_oak. split.
  - rewrite bind_ok. intros (u & Hu & H). rewrite guard_ok in Hu. rewrite bind_ok in H. destruct H as (u' & Hu' & H). rewrite guard_ok in Hu'. split.
    { apply orb_true_iff in Hu. destruct Hu as [Hu|Hu]; apply Z.eqb_eq in Hu; subst v; [right|left; reflexivity]. split; [reflexivity|].
      destruct pub; [discriminate Hu'|reflexivity]. }
    destruct (name_of o COMPOSITE_KEM_NAME_2_OID) as [n|] eqn:N.
    + rewrite bind_ok in H. destruct H as (p & Hp & H). injection H as <-. apply comp_of_name in N. destruct N as (r & I & -> & _).
      apply (load_comp_iff L K r d pub p GK I) in Hp. cbn [oak_field]. exists r. auto.
    + destruct (bytes_eqb o XWING_OID) eqn:X.
      * rewrite bind_ok in H. destruct H as (p & Hp & H). injection H as <-. apply bytes_eqb_eq in X. apply load_xwing_iff in Hp. cbn [oak_field]. split; [exact X|exact Hp].
      * destruct (name_of o CHEMPAT_NAME_2_OID) as [n'|] eqn:N'; [|discriminate H]. rewrite bind_ok in H. destruct H as (p & Hp & H). injection H as <-.
        apply chempat_of_name in N'. destruct N' as ([[q c] o'] & I & Eo & _). cbn [snd] in Eo. subst o'.
        apply (load_chempat_iff L K GK q c o d pub p I B) in Hp. cbn [oak_field]. exists q, c. auto.
  - intros [V F]. apply bind_ok. exists tt. split; [apply guard_ok; destruct V as [->|[-> _]]; reflexivity|].
    apply bind_ok. exists tt. split; [apply guard_ok; destruct V as [->|[-> ->]]; reflexivity|].
    destruct k as [p|p|p]; cbn [oak_field] in F.
    + destruct F as (-> & F). change (name_of _ COMPOSITE_KEM_NAME_2_OID) with (name_of XWING_OID COMPOSITE_KEM_NAME_2_OID).
      destruct (name_of XWING_OID COMPOSITE_KEM_NAME_2_OID) as [n|] eqn:N.
      { exfalso. apply comp_of_name in N. destruct N as (r & I & Q & _). pose proof (comp_not_xwing r I) as X. rewrite <- Q in X. discriminate X. }
      change (bytes_eqb _ XWING_OID) with true. cbv iota. apply bind_ok. exists p. split; [apply load_xwing_iff; exact F|reflexivity].
    + destruct F as (q & c & I & F). pose proof (chempat_not_xwing _ I) as X. pose proof (comp_not_chempat _ I) as N. pose proof (chempat_name_of _ I) as N'.
      cbn [snd] in X, N, N'. rewrite X, N, N'. apply bind_ok. exists p. split; [|reflexivity]. apply (load_chempat_iff L K GK q c o d pub p I B). exact F.
    + destruct F as (r & I & -> & F). rewrite (comp_name_of r I). apply bind_ok. exists p. split; [|reflexivity]. apply (load_comp_iff L K r d pub p GK I). exact F.
Qed.
(** The key is of the algorithm that the structure names. *)
Lemma oak_oid o d pub k : oak_field L K o d pub k -> priv_oid L k = Ok o /\ pub_oid L (public L k) = Ok o.
Proof using GK.
  destruct k as [p|p|p]; cbn [oak_field priv_oid public pub_oid].
  - intros (-> & _). split; reflexivity.
  - intros (q & c & I & l & a & b & q' & x & _ & _ & Hq & _ & H).
    assert (O : chempat_oid L (chempat_public L p) = Ok o).
    { apply chempat_oid_iff. pose proof (pq_field_name L K GK q a q' Hq) as Nq. destruct pub as [pb|].
      - destruct H as (pb' & rest & _ & _ & _ & ->). exact I.
      - subst p. cbn [chempat_public cp_pq pq_public pp_name cs_pq cp_curve cs_curve]. rewrite Nq. exact I. }
    auto.
  - intros (r & I & -> & q & t & Hq & Ht & -> & _). cbv zeta in Hq, Ht.
    pose proof (made_oid L K r q _ t I (pq_half_name L K _ _ _ GK Hq) Ht) as M. rewrite (mk_kpriv_rfc L K r q _ t Ht) in M. exact M.
Qed.
Lemma load_oak_err o v d pub : (forall r, In r all_rows -> o <> kr_oid r) -> (forall q c, ~ In (q, c, o) chempat_rows) -> o <> [1; 3; 6; 1; 4; 1; 62253; 25722] ->
  forall k, load_oak L K o v d pub <> Ok k.
Proof.
  intros A B C k H. unfold load_oak in H. rewrite bind_ok in H. destruct H as (u & _ & H). rewrite bind_ok in H. destruct H as (u' & _ & H).
  destruct (name_of o COMPOSITE_KEM_NAME_2_OID) as [n|] eqn:N.
  - apply comp_of_name in N. destruct N as (r & I & Q & _). exact (A r I Q).
  - destruct (bytes_eqb o XWING_OID) eqn:X; [apply bytes_eqb_eq in X; contradiction|].
    destruct (name_of o CHEMPAT_NAME_2_OID) as [n'|] eqn:N'; [|discriminate H]. apply chempat_of_name in N'. destruct N' as ([[q c] o'] & I & Eo & _).
    cbn [snd] in Eo. subst o'. exact (B q c I).
Qed.
(** What is written: identifier, and the public key exactly when asked for or with version 1. *)
Lemma save_oak_fields k v t inc o d pub : save_oak L K k v t inc = Ok (o, d, pub) ->
  priv_oid L k = Ok o /\
  match k with HX x => xwing_save t x = Ok d | HC x => save_chempat K x t = Ok d | HK x => save_comp K x t = Ok d end /\
  pub = if inc || (1 <=? v) then Some (public_bytes L (public L k)) else None.
Proof.
  unfold save_oak. rewrite bind_ok. intros (o' & Ho & H). rewrite bind_ok in H. destruct H as (d' & Hd & H). destruct (inc || (1 <=? v)).
  - rewrite bind_ok in H. destruct H as (u & _ & H). injection H as <- <- <-. destruct k; auto.
  - injection H as <- <- <-. destruct k; auto.
Qed.
Lemma spki_roundtrip k o : pub_oid L k = Ok o -> hpub_reads L K k ->
  save_spki L k = Ok (o, public_bytes L k) /\ load_spki L K o (public_bytes L k) = Ok k.
Proof.
  intros O R. split; [unfold save_spki; rewrite O; reflexivity|]. apply load_spki_iff. destruct k as [p|p|p]; cbn [pub_oid hpub_reads spki_field public_bytes] in *.
  - injection O as <-. destruct R as [A B]. split; [reflexivity|]. split; [reflexivity|]. auto.
  - apply chempat_oid_iff in O. destruct R as [A B]. exists (cp_trad p). auto.
  - apply comp_oid_iff in O. destruct O as (r & (I & Nd & Nq & Nt) & ->). destruct R as (A & F & B).
    exists r, (trad_encode TL (kp_trad p)), (with_rfc_pub false (kp_trad p)). split; [exact I|]. split; [reflexivity|]. split; [reflexivity|].
    split; [exact Nq|]. split; [exact Nd|]. split; [rewrite Nq; exact A|]. rewrite Nt, Nd. destruct p as [b q t]. cbn [kp_trad kp_dhkem] in *.
    destruct t as [rfc c x|x]; cbn [talg_of trad_pub_half with_rfc_pub trad_encode pub_reads] in *.
    + split; [|rewrite F; reflexivity]. split; [reflexivity|]. destruct (is_ec c); [exact B|]. auto.
    + auto.
Qed.

(** ** Round trips of the structure *)
Lemma oak_checks o v d pub : (v = 1 \/ (v = 0 /\ pub = None)) -> load_oak L K o v d pub =
  match name_of o COMPOSITE_KEM_NAME_2_OID with
  | Some _ => let! k := load_comp L K o d pub in Ok (HK k)
  | None =>
      if bytes_eqb o XWING_OID then let! k := load_xwing L d pub in Ok (HX k)
      else match name_of o CHEMPAT_NAME_2_OID with
      | Some _ => let! k := load_chempat L K o d pub in Ok (HC k)
      | None => Err EBadAlg
      end
  end.
Proof. intros [->|[-> ->]]; reflexivity. Qed.
Lemma pub_cond v inc {A} (x : A) : (v = 1 \/ (v = 0 /\ inc = false)) ->
  let pub := if inc || (1 <=? v) then Some x else None in (v = 1 \/ (v = 0 /\ pub = None)) /\ (pub = None \/ pub = Some x).
Proof. cbv zeta. intros [->|[-> ->]]; cbn [orb]; [|auto]. split; [auto|]. destruct (inc || (1 <=? 1)); auto. Qed.
Lemma oak_roundtrip_xwing seed k v t inc : length seed = 32%nat -> xwing_made L seed (Some seed) k -> (v = 1 \/ (v = 0 /\ inc = false)) ->
  exists o d pub k', save_oak L K (HX k) v t inc = Ok (o, d, pub) /\ load_oak L K o v d pub = Ok (HX k') /\ same_xwing k k' /\
    xs_seed k' = match t with PqKeyModel.RAW => None | _ => Some seed end.
Proof using GL GK.
  intros Ls M V. destruct (xwing_roundtrip seed k t Ls M) as (d & k' & Sv & Sm & Sd & L1 & L2).
  destruct (pub_cond v inc (xwing_public_bytes (xwing_public L k)) V) as [V1 V2].
  exists XWING_OID, d, (if inc || (1 <=? v) then Some (xwing_public_bytes (xwing_public L k)) else None), k'. split.
  { unfold save_oak. cbn [priv_oid bind]. rewrite Sv. cbn [bind]. destruct (inc || (1 <=? v)); reflexivity. }
  split; [|auto]. rewrite oak_checks by exact V1. destruct (name_of XWING_OID COMPOSITE_KEM_NAME_2_OID) as [n|] eqn:N.
  { exfalso. apply comp_of_name in N. destruct N as (r & I & Q & _). pose proof (comp_not_xwing r I) as X. rewrite <- Q in X. discriminate X. }
  change (bytes_eqb XWING_OID XWING_OID) with true. cbv iota. apply bind_ok. exists k'. split; [|reflexivity].
  destruct V2 as [H|H]; rewrite H; assumption.
Qed.
Lemma oak_roundtrip_chempat k a s v t inc o d pub : cs_pq k = of_kem a s -> (exists sd, PqKeySpec.seeded E (PqKeyModel.Kem a) sd s) ->
  scalar_reads K (cs_curve k) (cs_trad k) -> (v = 1 \/ (v = 0 /\ inc = false)) -> save_oak L K (HC k) v t inc = Ok (o, d, pub) ->
  exists k', load_oak L K o v d pub = Ok (HC k') /\ same_pq (cs_pq k) (cs_pq k') /\ cs_curve k' = cs_curve k /\ cs_trad k' = cs_trad k /\
    ps_seed (cs_pq k') = match t with PqKeyModel.RAW => None | _ => ps_seed (cs_pq k) end.
Proof using GL GK.
  intros Ek Sd R V Sv. destruct (save_oak_fields _ _ _ _ _ _ _ Sv) as (O & Hd & Hp). cbn [priv_oid public public_bytes] in *.
  apply chempat_oid_iff in O. cbn [chempat_public cp_pq pq_public pp_name cp_curve] in O. assert (Nk : ps_name (cs_pq k) = MlKem a) by (rewrite Ek; reflexivity).
  rewrite Nk in O. destruct (pub_cond v inc (chempat_public_bytes (chempat_public L k)) V) as [V1 V2]. rewrite <- Hp in V1, V2.
  destruct (chempat_roundtrip_kem L K GL GK k o a s t d Ek O Sd R Hd pub V2) as (k' & Lk & H). exists k'. split; [|exact H].
  rewrite oak_checks by exact V1. pose proof (chempat_not_xwing _ O) as X. pose proof (comp_not_chempat _ O) as N. pose proof (chempat_name_of _ O) as N'.
  cbn [snd] in X, N, N'. rewrite X, N, N'. apply bind_ok. eauto.
Qed.
Lemma oak_roundtrip_comp k s v inc o d pub : seeded_half L K (ks_pq k) s -> flags_ok k -> priv_reads K (ks_trad k) ->
  length (ps_pub (ks_pq k)) = pq_pub_size K (ps_name (ks_pq k)) -> pub_reads L K (trad_public TL (ks_trad k)) ->
  (forall x, ks_trad k = SRsa x -> In (t_rsa_bits TL (t_rsa_pub TL x)) [2048; 3072; 4096]%N) ->
  (v = 1 \/ (v = 0 /\ inc = false)) -> save_oak L K (HK k) v PqKeyModel.SEED inc = Ok (o, d, pub) ->
  load_oak L K o v d pub = Ok (HK k).
Proof using GL GK.
  intros S F P Lp R Rs V Sv. destruct (save_oak_fields _ _ _ _ _ _ _ Sv) as (O & Hd & Hp). cbn [priv_oid public public_bytes] in *.
  assert (Mk : k = mk_kpriv (ks_dhkem k) (ks_pq k) (ks_trad k)).
  { unfold mk_kpriv. destruct k as [b q t']. cbn [ks_dhkem ks_pq ks_trad flags_ok] in *. destruct t' as [rfc c x|x]; [|reflexivity]. change (rfc = b) in F. rewrite F. destruct b; reflexivity. }
  assert (O2 : comp_oid L (comp_public L k) = Ok o).
  { rewrite Mk in O |- *. rewrite comp_priv_oid_eq in O; [exact O|]. intros x Ex. specialize (Rs x Ex). set (n := t_rsa_bits TL (t_rsa_pub TL x)) in *. destruct Rs as [<-|[<-|[<-|[]]]]; reflexivity. }
  apply comp_oid_iff in O2. destruct O2 as (r & Rr & ->). destruct (pub_cond v inc (comp_public_bytes L (comp_public L k)) V) as [V1 V2]. rewrite <- Hp in V1, V2.
  destruct (comp_roundtrip L K GL GK r k s Rr F S P) as (x & Sx & L1 & L2). assert (x = d) by congruence. subst x.
  rewrite oak_checks by exact V1. rewrite (comp_name_of r (proj1 Rr)). apply bind_ok. exists k. split; [|reflexivity].
  destruct V2 as [->| ->]; [exact L1|]. apply L2; [|exact R]. destruct Rr as (_ & _ & N & _). rewrite N. exact Lp.
Qed.
End Lib.
