(** Round trips of hybrid key encapsulation keys. *)
From Coq Require Import String Ascii NArith.
From Verif Require Import Prelude PreludeFacts CompSigModel CompSigProofs CompLoadModel TradKemModel TradKemSpec TradKemProofs HybKemModel HybKemSpec HybKemProofs HybLoadModel HybLoadSpec HybLoadProofs.
From Verif Require PqKeyModel PqKeySpec PqKeyProofs PqKeyMore.
Open Scope Z_scope.
Local Notation length := List.length.

Section Lib.
Variable L : hlib.
Variable K : klib.
Notation TL := (h_trad L).
Notation E := (h_pq L).
Hypothesis GL : good_hlib L.
Hypothesis GK : good_klib K.

(** ** ML-KEM halves *)
Lemma of_kem_facts a s x : PqKeySpec.seeded E (PqKeyModel.Kem a) s x ->
  length (PqKeyModel.k_priv x) = PqKeySpec.std_priv (PqKeyModel.Kem a) /\
  length (PqKeyModel.p_bytes (PqKeyModel.public_key x)) = PqKeySpec.std_pub (PqKeyModel.Kem a) /\ PqKeyModel.k_seed x = Some s /\
  PqKeyModel.k_alg x = PqKeyModel.Kem a.
Proof using GL.
  intros [Ls Hx]. destruct (PqKeyProofs.inv_seed E (gh_pq L GL) _ _ _ Hx) as [(A & B & C & _) D].
  rewrite PqKeyProofs.priv_std in B. rewrite PqKeyProofs.pub_std in C. auto.
Qed.
Lemma save_of_kem a x t : PqKeyModel.k_alg x = PqKeyModel.Kem a -> save_pq (of_kem a x) t = PqKeyModel.save_private x t.
Proof. intro A. unfold save_pq, of_kem, PqKeyModel.save_private, PqKeyModel.private_numbers. cbn [ps_name ps_priv ps_pub ps_seed PqKeyModel.k_alg PqKeyModel.k_priv PqKeyModel.k_seed]. rewrite A. reflexivity. Qed.
Lemma save_half_total k s t : seeded_half L K k s -> exists b, save_pq k t = Ok b.
Proof using GL.
  intros (N & Sd & Le & Hh). destruct (ps_name k) as [a|n b|n|] eqn:Nm; try contradiction.
  - cbn [pq_half] in Hh. destruct Hh as (x & Hx & ->). destruct (of_kem_facts a s x Hx) as (_ & _ & _ & A). rewrite save_of_kem by exact A.
    exact (PqKeyMore.save_total E (gh_pq L GL) _ s x t (proj1 Hx) (proj2 Hx)).
  - unfold save_pq. rewrite Nm. unfold pq_numbers. rewrite Sd. destruct t; cbn [of_opt bind]; eauto.
Qed.

(** ** Composite keys *)
Lemma reads_half r k : key_row L (comp_public L k) r -> flags_ok k -> priv_reads K (ks_trad k) ->
  trad_half L K (kr_trad r) (export_trad K (ks_trad k)) (with_rfc false (ks_trad k)).
Proof.
  intros (_ & _ & _ & R) F P. rewrite R. unfold comp_public. destruct k as [b q t]. cbn [ks_dhkem ks_pq ks_trad flags_ok] in *.
  destruct t as [rfc c d|x]; cbn [with_rfc mk_kpub trad_public kp_trad talg_of trad_half export_trad priv_reads] in *.
  - split; [reflexivity|]. destruct (is_ec c); [exact P|]. auto.
  - destruct P as [P1 P2]. auto.
Qed.
Lemma reads_pub_half r k : key_row L (comp_public L k) r -> pub_reads L K (trad_public TL (ks_trad k)) ->
  trad_pub_half L K (kr_trad r) (trad_encode TL (trad_public TL (ks_trad k))) (trad_public TL (with_rfc false (ks_trad k))).
Proof.
  intros (_ & _ & _ & R) P. rewrite R. unfold comp_public. destruct k as [b q t]. cbn [ks_dhkem ks_pq ks_trad] in *.
  destruct t as [rfc c d|x]; cbn [with_rfc mk_kpub trad_public kp_trad talg_of trad_pub_half trad_encode pub_reads] in *.
  - split; [reflexivity|]. destruct (is_ec c); [exact P|]. auto.
  - auto.
Qed.
Lemma seed_first r k s : key_row L (comp_public L k) r -> seeded_half L K (ks_pq k) s -> length s = pq_priv_size K (kr_pq r) /\
  pq_half L K (kr_pq r) s (ks_pq k).
Proof. intros (_ & _ & N & _) (_ & _ & Le & Hh). cbn [comp_public mk_kpub kp_pq pq_public pp_name] in N. rewrite N. auto. Qed.

Lemma save_comp_seed k s : seeded_half L K (ks_pq k) s -> save_comp K k PqKeyModel.SEED = Ok (s ++ export_trad K (ks_trad k)).
Proof using GL.
  intro H. destruct (save_half_total _ _ PqKeyModel.SEED H) as (b & Hb). unfold save_comp. rewrite Hb. cbn [bind]. cbv zeta.
  destruct H as (N & Sd & _). unfold pq_numbers. rewrite Sd. destruct (ps_name (ks_pq k)); try contradiction; reflexivity.
Qed.
Lemma comp_roundtrip r k s : key_row L (comp_public L k) r -> flags_ok k -> seeded_half L K (ks_pq k) s -> priv_reads K (ks_trad k) ->
  exists x, save_comp K k PqKeyModel.SEED = Ok x /\ load_comp L K (kr_oid r) x None = Ok k /\
    (length (ps_pub (ks_pq k)) = pq_pub_size K (kr_pq r) -> pub_reads L K (trad_public TL (ks_trad k)) ->
     load_comp L K (kr_oid r) x (Some (comp_public_bytes L (comp_public L k))) = Ok k).
Proof using GL GK.
  intros R F S P. exists (s ++ export_trad K (ks_trad k)). split; [apply save_comp_seed, S|].
  destruct (seed_first r k s R S) as [Ls Hh]. pose proof (reads_half r k R F P) as Ht. pose proof (proj1 R) as I.
  assert (Ek : k = {| ks_dhkem := kr_dhkem r; ks_pq := ks_pq k; ks_trad := with_rfc (kr_dhkem r) (with_rfc false (ks_trad k)) |}).
  { destruct R as (_ & R1 & _). destruct k as [b q t]. cbn [comp_public mk_kpub kp_dhkem ks_dhkem ks_pq ks_trad flags_ok] in *. rewrite R1. f_equal.
    destruct t; cbn [with_rfc] in *; [rewrite F|]; reflexivity. }
  split.
  - apply (load_comp_iff L K r _ None k GK I). cbv zeta. exists (ks_pq k), (with_rfc false (ks_trad k)).
    rewrite (firstn_app_exact s _ _ Ls), (skipn_app_exact s _ _ Ls). auto.
  - intros Lp Pr. apply (load_comp_iff L K r _ _ k GK I). cbv zeta. exists (ks_pq k), (with_rfc false (ks_trad k)).
    rewrite (firstn_app_exact s _ _ Ls), (skipn_app_exact s _ _ Ls). split; [exact Hh|]. split; [exact Ht|]. split; [exact Ek|].
    exists (trad_encode TL (trad_public TL (ks_trad k))). split; [|split; [exact Lp|apply (reads_pub_half r k R Pr)]].
    unfold comp_public_bytes, comp_public, mk_kpub. cbn [kp_pq kp_trad pq_public pp_bytes]. f_equal. destruct (ks_trad k); reflexivity.
Qed.
(** The other two forms are not read back: the loader takes the first bytes as the seed. *)
Lemma comp_raw_fails r k a c s t x pub : key_row L (comp_public L k) r -> kr_pq r = MlKem a -> kr_trad r = ADh c -> is_ec c = false ->
  seeded_half L K (ks_pq k) s -> priv_reads K (ks_trad k) -> t <> PqKeyModel.SEED -> save_comp K k t = Ok x ->
  forall k', load_comp L K (kr_oid r) x pub <> Ok k'.
Proof using GL GK.
  intros R Q T Ec S P Nt Sv k' Ld. pose proof (proj1 R) as I. apply (load_comp_iff L K r x pub k' GK I) in Ld. cbv zeta in Ld.
  destruct Ld as (q & t' & _ & Ht & _). rewrite T in Ht. destruct t' as [[] c' y|]; cbn [trad_half] in Ht; try contradiction.
  destruct Ht as [-> Ht]. rewrite Ec in Ht. destruct Ht as [_ Ht]. rewrite Q in Ht. cbn [pq_priv_size] in Ht. rewrite skipn_length in Ht.
  assert (Tr : exists rfc d, ks_trad k = SDh rfc c d /\ length d = std_pub_len c).
  { destruct R as (_ & _ & _ & R). rewrite T in R. unfold comp_public in R. destruct (ks_trad k) as [rfc c1 d|z]; cbn [mk_kpub trad_public kp_trad talg_of priv_reads] in *;
      [|discriminate R]. injection R as <-. rewrite Ec in P. eauto. }
  destruct Tr as (rfc & d & Tr & Ld).
  pose proof S as (_ & Sd & Ls & Hh). destruct (seed_first r k s R S) as [Ls' Hh']. rewrite Q in Ls', Hh'. cbn [pq_half pq_priv_size] in Ls', Hh'.
  destruct Hh' as (z & Hz & Ez). destruct (of_kem_facts a s z Hz) as (Lp & _).
  assert (Np : has_numbers (ps_name (ks_pq k)) = true) by (rewrite Ez; reflexivity).
  assert (Lpk : length (ps_priv (ks_pq k)) = PqKeySpec.std_priv (PqKeyModel.Kem a)) by (rewrite Ez; exact Lp).
  unfold save_comp in Sv. rewrite bind_ok in Sv. destruct Sv as (b & _ & Sv). cbv zeta in Sv. rewrite Np, Tr in Sv. cbn [export_trad] in Sv. rewrite Ec in Sv.
  destruct t; [contradiction| |].
  all: unfold comp_export, pq_numbers in Sv; try rewrite Np in Sv; try rewrite Sd in Sv; try rewrite Tr in Sv; cbn [of_opt bind export_trad] in Sv; try rewrite Ec in Sv;
    injection Sv as <-; rewrite !app_length in Ht; try rewrite Ls' in Ht; try rewrite Lpk in Ht; rewrite Ld in Ht.
  all: destruct c; try discriminate Ec; cbn [std_pub_len] in Ht; destruct a; unfold PqKeySpec.std_priv in *; cbn [PqKeySpec.std_sizes fst snd] in Ht; lia.
Qed.

(** ** Chempat *)
Lemma crow_split q c o : In (q, c, o) chempat_rows ->
  get_pq_alg_name (drop_first "chempat-" (lower (crow_name (q, c, o)))) = Ok q /\
  drop_first (pq_name q ++ "-") (drop_first "chempat-" (lower (crow_name (q, c, o)))) = lower (talg_name (ADh c)) /\
  get_pq_alg_name (crow_name (q, c, o)) = Ok q /\
  drop_first (pq_name q ++ "-") (drop_first "chempat-" (crow_name (q, c, o))) = talg_name (ADh c).
Proof.
  assert (T : forallb (fun r => let '(q, c, o) := r in
      match get_pq_alg_name (drop_first "chempat-" (lower (crow_name (q, c, o)))), get_pq_alg_name (crow_name (q, c, o)) with
      | Ok a, Ok b => String.eqb (pq_name a) (pq_name q) && String.eqb (pq_name b) (pq_name q) | _, _ => false end &&
      String.eqb (drop_first (pq_name q ++ "-") (drop_first "chempat-" (lower (crow_name (q, c, o))))) (lower (talg_name (ADh c))) &&
      String.eqb (drop_first (pq_name q ++ "-") (drop_first "chempat-" (crow_name (q, c, o)))) (talg_name (ADh c))) chempat_rows = true)
    by (vm_compute; reflexivity).
  intro I. rewrite forallb_forall in T. specialize (T _ I). cbv beta iota in T.
  destruct (get_pq_alg_name (drop_first "chempat-" (lower (crow_name (q, c, o))))) as [a|]; [|discriminate T].
  destruct (get_pq_alg_name (crow_name (q, c, o))) as [b|]; [|discriminate T].
  apply andb_true_iff in T. destruct T as [T T3]. apply andb_true_iff in T. destruct T as [T T2]. apply andb_true_iff in T. destruct T as [T T1].
  apply String.eqb_eq in T, T1, T2, T3. apply pq_name_inj in T, T1. subst. auto.
Qed.
Lemma dh_private_eq c d : dh_from_private K (lower (talg_name (ADh c))) d =
  if is_ec c then (let! k := of_opt (kl_derive K c (from_bytes d)) EValueError in Ok (c, k))
  else if (length d =? std_pub_len c)%nat then Ok (c, d) else Err EValueError.
Proof. destruct c; reflexivity. Qed.
Lemma dh_private_iff c d c' x : dh_from_private K (lower (talg_name (ADh c))) d = Ok (c', x) <-> c' = c /\ dh_field K c d x.
Proof.
  rewrite dh_private_eq. unfold dh_field. rewrite <- from_bytes_value. destruct (is_ec c).
  - rewrite bind_ok. split.
    + intros (k & Hk & H). rewrite of_opt_ok in Hk. injection H as <- <-. auto.
    + intros [-> H]. exists x. rewrite of_opt_ok. auto.
  - destruct (Nat.eqb_spec (length d) (std_pub_len c)) as [Le|Ne]; split.
    + intro H. injection H as <- <-. auto.
    + intros (-> & -> & _). reflexivity.
    + discriminate.
    + intros (_ & _ & H). contradiction.
Qed.
Lemma dh_public_eq c d : dh_from_public L (talg_name (ADh c)) d =
  match read_pub TL c d with Ok q => Ok (c, q) | Err EValueError => Err EInvalidKeyData | Err e => Err e end.
Proof. destruct c; reflexivity. Qed.
Lemma dh_public_iff c d c' x : dh_from_public L (talg_name (ADh c)) d = Ok (c', x) <-> c' = c /\ dh_pub_field L c d x.
Proof.
  rewrite dh_public_eq. unfold dh_pub_field. pose proof (read_pub_iff L c d x) as R. destruct (read_pub TL c d) as [y|e] eqn:Q.
  - split.
    + intro H. injection H as <- <-. split; [reflexivity|]. apply R. reflexivity.
    + intros [-> H]. apply R in H. congruence.
  - apply read_pub_err in Q. subst e. split; [discriminate|]. intros [_ H]. apply R in H. discriminate H.
Qed.
Lemma chempat_public_iff q c o d p : In (q, c, o) chempat_rows ->
  chempat_from_public L K d (crow_name (q, c, o)) = Ok p <->
  exists b rest x, d = b ++ rest /\ length b = pq_pub_size K q /\ dh_pub_field L c rest x /\
    p = {| cp_pq := {| pp_name := q; pp_bytes := b |}; cp_curve := c; cp_trad := x |}.
Proof.
  intro I. unfold chempat_from_public. destruct (crow_split q c o I) as (_ & _ & H3 & H4). rewrite H3. cbn [bind]. rewrite H4. split.
  - rewrite bind_ok. intros ([pk rest] & H1 & H). apply pq_from_public_iff in H1. destruct H1 as (N & Le & ->).
    rewrite bind_ok in H. destruct H as ([c' x] & Hx & H). apply dh_public_iff in Hx. destruct Hx as [-> Hx].
    rewrite bind_ok in H. destruct H as (o' & _ & H). injection H as <-. exists (pp_bytes pk), rest, x.
    destruct pk as [pn pb]. cbn [pp_name pp_bytes] in *. subst pn. auto.
  - intros (b & rest & x & -> & Le & Hx & ->).
    pose proof (proj2 (pq_from_public_iff K q (b ++ rest) {| pp_name := q; pp_bytes := b |} rest) (conj eq_refl (conj Le eq_refl))) as P1.
    rewrite P1. cbn [bind]. pose proof (proj2 (dh_public_iff c rest c x) (conj eq_refl Hx)) as P2. rewrite P2. cbn [bind].
    assert (O : chempat_oid L {| cp_pq := {| pp_name := q; pp_bytes := b |}; cp_curve := c; cp_trad := x |} = Ok o).
    { apply chempat_oid_iff. exact I. }
    rewrite O. reflexivity.
Qed.
Lemma pq_field_iff q d k : load_pq_key L K q d = Ok k <-> pq_field L K q d k.
Proof.
  destruct q; try reflexivity. cbn [load_pq_key pq_field]. rewrite bind_ok. split.
  - intros (x & Hx & H). injection H as <-. eauto.
  - intros (x & Hx & ->). eauto.
Qed.
Lemma chempat_private_eq q c o d : In (q, c, o) chempat_rows ->
  load_chempat_private L K o d =
  let n := Z.to_nat (from_le (firstn 4 d)) in
  let! k := load_pq_key L K q (firstn n (skipn 4 d)) in
  let! (c, t) := match dh_from_private K (lower (talg_name (ADh c))) (skipn (4 + n) d) with Err EValueError => Err EInvalidKeyData | r => r end in
  Ok {| cs_pq := k; cs_curve := c; cs_trad := t |}.
Proof.
  intro I. unfold load_chempat_private. pose proof (chempat_name_of _ I) as N. cbn [snd] in N. rewrite N. cbn [of_opt bind]. cbv zeta.
  destruct (crow_split q c o I) as (H1 & H2 & _). rewrite H1. cbn [bind]. rewrite H2. reflexivity.
Qed.
Lemma le4_value n l : le4 n l -> length l = 4%nat /\ from_le l = Z.of_nat n.
Proof. intros (a & b & c & d & -> & H). split; [reflexivity|]. unfold from_le. cbn [fold_right]. lia. Qed.
Lemma value_le4 l : length l = 4%nat -> is_bytes l = true -> le4 (Z.to_nat (from_le l)) l.
Proof.
  intros Le B. destruct l as [|a [|b [|c [|d [|? ?]]]]]; try discriminate Le. exists a, b, c, d. split; [reflexivity|].
  unfold is_bytes in B. cbn [forallb] in B. unfold is_byte in B. unfold from_le. cbn [fold_right]. lia.
Qed.
Lemma from_le_pos l : is_bytes l = true -> 0 <= from_le l.
Proof.
  induction l as [|x l IH]; intro B; [cbn; lia|]. unfold is_bytes in B. cbn [forallb] in B. apply andb_true_iff in B. destruct B as [B1 B2].
  specialize (IH B2). unfold is_byte in B1. unfold from_le in *. cbn [fold_right]. lia.
Qed.
Lemma skipn_add {A} n m (l : list A) : skipn n (skipn m l) = skipn (m + n) l.
Proof. revert l. induction m as [|m IH]; intro l; [reflexivity|]. destruct l as [|y l]; [destruct n; reflexivity|apply IH]. Qed.
Lemma dh_field_empty c x : ~ dh_field K c [] x.
Proof using GK.
  unfold dh_field. destruct (is_ec c) eqn:Ec.
  - cbn [value]. rewrite (gk_zero K GK). discriminate.
  - intros [_ H]. destruct c; discriminate.
Qed.
Lemma chempat_private_intro q c o l a b k x : In (q, c, o) chempat_rows -> le4 (length a) l -> pq_field L K q a k -> dh_field K c b x ->
  load_chempat_private L K o (l ++ a ++ b) = Ok {| cs_pq := k; cs_curve := c; cs_trad := x |}.
Proof.
  intros I Hl Hk Hx. rewrite (chempat_private_eq q c o _ I). cbv zeta. destruct (le4_value _ _ Hl) as [Le Hv].
  rewrite (firstn_app_exact l _ 4 Le), Hv, Nat2Z.id, (skipn_app_exact l _ 4 Le), (firstn_app_exact a b _ eq_refl).
  pose proof (proj2 (pq_field_iff _ _ _) Hk) as P. rewrite P. cbn [bind].
  assert (S : skipn (4 + length a) (l ++ a ++ b) = b).
  { rewrite app_assoc. apply skipn_app_exact. rewrite app_length, Le. reflexivity. }
  rewrite S. pose proof (proj2 (dh_private_iff c b c x) (conj eq_refl Hx)) as D. rewrite D. reflexivity.
Qed.
Lemma chempat_private_iff q c o d k : In (q, c, o) chempat_rows -> is_bytes d = true ->
  load_chempat_private L K o d = Ok k <->
  exists l a b q' x, d = l ++ a ++ b /\ le4 (length a) l /\ pq_field L K q a q' /\ dh_field K c b x /\
    k = {| cs_pq := q'; cs_curve := c; cs_trad := x |}.
Proof using GK.
  intros I B. split.
  - rewrite (chempat_private_eq q c o _ I). cbv zeta. set (n := Z.to_nat (from_le (firstn 4 d))). rewrite bind_ok.
    intros (q' & Hq & H). apply pq_field_iff in Hq. rewrite bind_ok in H. destruct H as ([c' x] & Hx & H). injection H as <-.
    assert (Hx' : dh_from_private K (lower (talg_name (ADh c))) (skipn (4 + n) d) = Ok (c', x)).
    { destruct (dh_from_private K (lower (talg_name (ADh c))) (skipn (4 + n) d)) as [|[]]; congruence. }
    apply dh_private_iff in Hx'. destruct Hx' as [-> Hf].
    assert (Lt : (4 + n < length d)%nat).
    { destruct (Nat.lt_ge_cases (4 + n) (length d)) as [|Ge]; [assumption|]. rewrite skipn_all2 in Hf by lia. exfalso. exact (dh_field_empty _ _ Hf). }
    assert (L4 : length (firstn 4 d) = 4%nat) by (rewrite firstn_length; lia).
    assert (Ln : length (firstn n (skipn 4 d)) = n) by (rewrite firstn_length, skipn_length; lia).
    assert (B4 : is_bytes (firstn 4 d) = true).
    { rewrite <- (firstn_skipn 4 d) in B. unfold is_bytes in *. rewrite forallb_app in B. apply andb_true_iff in B. apply B. }
    exists (firstn 4 d), (firstn n (skipn 4 d)), (skipn (4 + n) d), q', x. split; [|split; [|auto]].
    + rewrite <- (firstn_skipn 4 d) at 1. f_equal. rewrite <- (firstn_skipn n (skipn 4 d)) at 1. f_equal. apply skipn_add.
    + rewrite Ln. unfold n. apply value_le4; assumption.
  - intros (l & a & b & q' & x & -> & Hl & Hq & Hx & ->). apply (chempat_private_intro q c o); assumption.
Qed.
Lemma pq_field_name q d k : pq_field L K q d k -> ps_name k = q.
Proof using GK. destruct q; cbn [pq_field]; [intros (x & _ & ->); reflexivity|apply (gk_name K GK)..]. Qed.

(** With a public key in the structure: the traditional half must be that of the private key, the post-quantum half is taken
    over without a check. *)
Lemma load_chempat_iff q c o d pub k : In (q, c, o) chempat_rows -> is_bytes d = true ->
  load_chempat L K o d pub = Ok k <->
  exists l a b q' x, d = l ++ a ++ b /\ le4 (length a) l /\ pq_field L K q a q' /\ dh_field K c b x /\
    match pub with
    | None => k = {| cs_pq := q'; cs_curve := c; cs_trad := x |}
    | Some p => exists pb rest, p = pb ++ rest /\ length pb = pq_pub_size K q /\ dh_pub_field L c rest (t_pub TL c x) /\
        k = {| cs_pq := {| ps_name := q; ps_priv := ps_priv q'; ps_pub := pb; ps_seed := ps_seed q' |}; cs_curve := c; cs_trad := x |}
    end.
Proof using GK.
  intros I B. unfold load_chempat. pose proof (chempat_name_of _ I) as N. cbn [snd] in N. rewrite N. cbn [of_opt bind]. rewrite bind_ok. split.
  - intros (k' & Hk & H). apply (chempat_private_iff q c o d k' I B) in Hk. destruct Hk as (l & a & b & q' & x & E1 & E2 & E3 & E4 & ->).
    exists l, a, b, q', x. do 4 (split; [assumption|]). destruct pub as [p|].
    + rewrite bind_ok in H. destruct H as (pk & Hp & H). apply (chempat_public_iff q c o p pk I) in Hp.
      destruct Hp as (pb & rest & y & -> & Le & Hy & ->). rewrite bind_ok in H. destruct H as (u & Hu & H). rewrite guard_ok in Hu. injection H as <-.
      apply bytes_eqb_eq in Hu. cbn [cp_pq pp_bytes set_pub chempat_public_bytes chempat_public cs_pq cs_curve cs_trad pq_public ps_pub cp_trad cp_curve] in Hu.
      apply app_inv_head in Hu. change (y = t_pub TL c x) in Hu. subst y. exists pb, rest. split; [reflexivity|]. split; [exact Le|]. split; [exact Hy|].
      unfold set_pub. cbn [cs_pq cs_curve cs_trad cp_pq pp_bytes]. rewrite (pq_field_name q a q' E3). reflexivity.
    + congruence.
  - intros (l & a & b & q' & x & E1 & E2 & E3 & E4 & H). exists {| cs_pq := q'; cs_curve := c; cs_trad := x |}. split.
    + rewrite E1. apply (chempat_private_intro q c o); assumption.
    + destruct pub as [p|]; [|congruence]. destruct H as (pb & rest & -> & Le & Hy & ->).
      pose proof (proj2 (chempat_public_iff q c o (pb ++ rest) _ I) (ex_intro _ pb (ex_intro _ rest (ex_intro _ (t_pub TL c x)
        (conj eq_refl (conj Le (conj Hy eq_refl))))))) as P. rewrite P. cbn [bind].
      assert (Gd : bytes_eqb (chempat_public_bytes {| cp_pq := {| pp_name := q; pp_bytes := pb |}; cp_curve := c; cp_trad := t_pub TL c x |})
        (chempat_public_bytes (chempat_public L (set_pub {| cs_pq := q'; cs_curve := c; cs_trad := x |}
          (pp_bytes (cp_pq {| cp_pq := {| pp_name := q; pp_bytes := pb |}; cp_curve := c; cp_trad := t_pub TL c x |}))))) = true).
      { apply bytes_eqb_eq. reflexivity. }
      rewrite Gd. cbn [guard bind]. unfold set_pub. cbn [cs_pq cs_curve cs_trad cp_pq pp_bytes]. rewrite (pq_field_name q a q' E3). reflexivity.
Qed.
(** A different traditional half is refused. *)
Lemma chempat_mismatch q c o l a b q' x pb rest y : In (q, c, o) chempat_rows -> le4 (length a) l -> pq_field L K q a q' -> dh_field K c b x ->
  length pb = pq_pub_size K q -> dh_pub_field L c rest y -> y <> t_pub TL c x ->
  load_chempat L K o (l ++ a ++ b) (Some (pb ++ rest)) = Err EMismatchingKey.
Proof.
  intros I E2 E3 E4 Le Hy Ne. unfold load_chempat. pose proof (chempat_name_of _ I) as N. cbn [snd] in N. rewrite N. cbn [of_opt bind].
  rewrite (chempat_private_intro q c o l a b q' x I E2 E3 E4). cbn [bind].
  pose proof (proj2 (chempat_public_iff q c o (pb ++ rest) _ I) (ex_intro _ pb (ex_intro _ rest (ex_intro _ y
    (conj eq_refl (conj Le (conj Hy eq_refl))))))) as P. rewrite P. cbn [bind].
  match goal with |- context [guard (bytes_eqb ?u ?v) _] => assert (Gd : bytes_eqb u v = false) end.
  { destruct (bytes_eqb _ _) eqn:Q; [|reflexivity]. exfalso. apply bytes_eqb_eq in Q.
    cbn [cp_pq pp_bytes set_pub chempat_public_bytes chempat_public cs_pq cs_curve cs_trad pq_public ps_pub cp_trad cp_curve] in Q.
    apply app_inv_head in Q. change (y = t_pub TL c x) in Q. contradiction. }
  rewrite Gd. reflexivity.
Qed.

(** Saving. *)
Lemma to_le4_ok n l : to_le4 (Z.of_nat n) = Ok l -> le4 n l.
Proof.
  unfold to_le4. rewrite bind_ok. intros (u & Hu & H). rewrite guard_ok in Hu. apply Z.ltb_lt in Hu. injection H as <-.
  do 4 eexists. split; [reflexivity|]. set (z := Z.of_nat n) in *. assert (0 <= z) by lia.
  pose proof (Z.div_mod z 256 ltac:(lia)). pose proof (Z.div_mod (z / 256) 256 ltac:(lia)). pose proof (Z.div_mod (z / 65536) 256 ltac:(lia)).
  assert (D1 : z / 256 / 256 = z / 65536) by (rewrite Z.div_div by lia; reflexivity).
  assert (D2 : z / 65536 / 256 = z / 16777216) by (rewrite Z.div_div by lia; reflexivity).
  assert (M : z / 16777216 mod 256 = z / 16777216).
  { apply Z.mod_small. split; [apply Z.div_pos; lia|apply Z.div_lt_upper_bound; lia]. }
  rewrite M, D1, D2 in *. lia.
Qed.
Lemma dh_encode_reads c d b : scalar_reads K c d -> dh_encode K c d = Ok b -> dh_field K c b d /\ length b = if is_ec c then curve_bits c else std_pub_len c.
Proof.
  unfold scalar_reads, dh_encode, dh_field. destruct (is_ec c) eqn:Ec.
  - intros [Bd Hd] H. apply to_bytes_ok in H. destruct H as [_ ->]. rewrite value_be, Z.mod_small by exact Bd. split; [exact Hd|apply be_length].
  - intros Ld H. injection H as <-. auto.
Qed.
Lemma chempat_saved k t x : scalar_reads K (cs_curve k) (cs_trad k) -> save_chempat K k t = Ok x ->
  exists l a b, x = l ++ a ++ b /\ le4 (length a) l /\ save_pq (cs_pq k) t = Ok a /\ dh_field K (cs_curve k) b (cs_trad k) /\
    length b = if is_ec (cs_curve k) then curve_bits (cs_curve k) else std_pub_len (cs_curve k).
Proof.
  intros R H. unfold save_chempat in H. rewrite bind_ok in H. destruct H as (a & Ha & H). rewrite bind_ok in H. destruct H as (l & Hl & H).
  rewrite bind_ok in H. destruct H as (b & Hb & H). injection H as <-. exists l, a, b. apply to_le4_ok in Hl.
  destruct (dh_encode_reads _ _ _ R Hb) as [D1 D2]. auto.
Qed.
Lemma pub_field_self c x : dh_pub_field L c (t_pub TL c x) (t_pub TL c x).
Proof using GL.
  unfold dh_pub_field. destruct (is_ec c) eqn:Ec; [apply (g_point TL (gh_trad L GL))|]. split; [reflexivity|apply (gh_pub_len L GL)].
Qed.
Lemma chempat_roundtrip k o t x q' : In (ps_name (cs_pq k), cs_curve k, o) chempat_rows -> scalar_reads K (cs_curve k) (cs_trad k) ->
  save_chempat K k t = Ok x -> (forall a, save_pq (cs_pq k) t = Ok a -> pq_field L K (ps_name (cs_pq k)) a q') ->
  length (ps_pub (cs_pq k)) = pq_pub_size K (ps_name (cs_pq k)) ->
  load_chempat L K o x None = Ok {| cs_pq := q'; cs_curve := cs_curve k; cs_trad := cs_trad k |} /\
  load_chempat L K o x (Some (chempat_public_bytes (chempat_public L k))) =
    Ok {| cs_pq := {| ps_name := ps_name (cs_pq k); ps_priv := ps_priv q'; ps_pub := ps_pub (cs_pq k); ps_seed := ps_seed q' |};
          cs_curve := cs_curve k; cs_trad := cs_trad k |}.
Proof using GL GK.
  intros I R H Hq Lp. destruct (chempat_saved k t x R H) as (l & a & b & -> & Hl & Ha & Hb & _). specialize (Hq a Ha).
  set (q := ps_name (cs_pq k)) in *. set (c := cs_curve k) in *. set (d := cs_trad k) in *.
  pose proof (chempat_name_of _ I) as N. cbn [snd] in N.
  pose proof (chempat_private_intro q c o l a b q' d I Hl Hq Hb) as P. split.
  - unfold load_chempat. rewrite N. cbn [of_opt bind]. rewrite P. reflexivity.
  - unfold load_chempat. rewrite N. cbn [of_opt bind]. rewrite P. cbn [bind].
    pose proof (proj2 (chempat_public_iff q c o (chempat_public_bytes (chempat_public L k)) _ I) (ex_intro _ (ps_pub (cs_pq k)) (ex_intro _ (t_pub TL c d) (ex_intro _ (t_pub TL c d)
      (conj eq_refl (conj Lp (conj (pub_field_self c d) eq_refl))))))) as Q. rewrite Q. cbn [bind].
    match goal with |- context [guard (bytes_eqb ?u ?v) _] => assert (Gd : bytes_eqb u v = true) by (apply bytes_eqb_eq; reflexivity) end.
    rewrite Gd. cbn [guard bind]. unfold set_pub. cbn [cs_pq cs_curve cs_trad cp_pq pp_bytes]. rewrite (pq_field_name q a q' Hq). reflexivity.
Qed.
(** ML-KEM. *)
Lemma chempat_roundtrip_kem k o a s t x : cs_pq k = of_kem a s -> In (MlKem a, cs_curve k, o) chempat_rows ->
  (exists sd, PqKeySpec.seeded E (PqKeyModel.Kem a) sd s) -> scalar_reads K (cs_curve k) (cs_trad k) -> save_chempat K k t = Ok x ->
  forall pub, pub = None \/ pub = Some (chempat_public_bytes (chempat_public L k)) ->
  exists k', load_chempat L K o x pub = Ok k' /\ same_pq (cs_pq k) (cs_pq k') /\ cs_curve k' = cs_curve k /\ cs_trad k' = cs_trad k /\
    ps_seed (cs_pq k') = match t with PqKeyModel.RAW => None | _ => ps_seed (cs_pq k) end.
Proof using GL GK.
  intros Ek I (sd & Sd) R H. destruct (of_kem_facts a sd s Sd) as (_ & Lp & Ds & A).
  destruct (chempat_saved k t x R H) as (_ & b & _ & _ & _ & Ha & _). rewrite Ek, save_of_kem in Ha by exact A.
  destruct (PqKeyMore.load_saved E (gh_pq L GL) _ sd s t b 0 None (proj1 Sd) (proj2 Sd) Ha (or_introl eq_refl) (or_introl eq_refl)) as (k' & Hk & (S1 & S2 & S3) & S4).
  assert (Nk : ps_name (cs_pq k) = MlKem a) by (rewrite Ek; reflexivity).
  assert (Pq : forall a0, save_pq (cs_pq k) t = Ok a0 -> pq_field L K (ps_name (cs_pq k)) a0 (of_kem a k')).
  { intros a0 H0. rewrite Ek, save_of_kem in H0 by exact A. assert (a0 = b) by congruence. subst a0. rewrite Nk. exists k'. auto. }
  assert (I' : In (ps_name (cs_pq k), cs_curve k, o) chempat_rows) by (rewrite Nk; exact I).
  assert (Lp' : length (ps_pub (cs_pq k)) = pq_pub_size K (ps_name (cs_pq k))) by (rewrite Ek; exact Lp).
  destruct (chempat_roundtrip k o t x (of_kem a k') I' R H Pq Lp') as [R1 R2].
  assert (Sk : PqKeyModel.k_seed k' = match t with PqKeyModel.RAW => None | _ => PqKeyModel.k_seed s end).
  { rewrite S4, Ds. destruct t; reflexivity. }
  intros pub [->| ->].
  - eexists. split; [exact R1|]. cbn [cs_pq cs_curve cs_trad]. rewrite Ek. split; [split; [reflexivity|]; split; [exact S2|exact S3]|].
    split; [reflexivity|]. split; [reflexivity|exact Sk].
  - eexists. split; [exact R2|]. cbn [cs_pq cs_curve cs_trad ps_seed]. split; [|rewrite Ek; auto].
    split; [reflexivity|]. split; [rewrite Ek; exact S2|reflexivity].
Qed.
End Lib.
