(** C77: storing and loading hybrid key encapsulation keys. *)
From Coq Require Import String.
From Verif Require Import Prelude CompSigModel TradKemModel TradKemSpec TradKemProofs TradKemProperties HybKemModel HybKemSpec HybKemProofs HybKemWitness HybKemProperties
  HybLoadModel HybLoadSpec HybLoadProofs HybLoadMore HybLoadFull.
From Verif Require PqKeyModel PqKeySpec PqKeyMore MlKemWitness.
Open Scope Z_scope.
Local Notation length := List.length.

(** * A library that meets the assumptions *)
Definition toyK : klib := {|
  kl_rsa_pub := fun b => Some (Some b); kl_ec_rest := fun _ => Some []; kl_rsa_rest := fun _ => Some [];
  kl_der_priv := fun d => match d with 0 :: x => Some (DEc P384 x) | _ :: x => Some (DRsa x) | [] => None end;
  kl_ec_der := fun _ d => 0 :: d; kl_rsa_der := fun k => 1 :: k;
  kl_derive := fun c z => if z =? 0 then None else Some (be (curve_bits c) z); kl_value := fun _ d => value d;
  kl_pq_pub_len := fun _ => 4%nat; kl_pq_seed_len := fun _ => 3%nat;
  kl_pq_priv := fun q d => Ok {| ps_name := q; ps_priv := d ++ d; ps_pub := [0; 0; 0; 0]; ps_seed := Some d |} |}.
Lemma toyK_good : good_klib toyK.
Proof. split; [intros q d k H; injection H as <-; reflexivity|reflexivity]. Qed.
Lemma ex_made : exists k, xwing_made toyH ex_seed (Some ex_seed) k.
Proof.
  destruct ex_xwing as [k H]. exists k. assert (G : forall L s, length s = 32%nat -> xwing_from_seed L s = Ok k -> xwing_expand L s = Ok k).
  { intros L s Ls. unfold xwing_from_seed. rewrite Ls. exact (fun x => x). }
  exact (proj1 (expand_iff toyH toyH_good ex_seed k) (G toyH ex_seed eq_refl H)).
Qed.
Lemma ex_kem : exists s x, PqKeySpec.seeded (h_pq toyH) (PqKeyModel.Kem PqKeyModel.K768) s x.
Proof. destruct ex_made as (k & e & q & _ & H & _). eauto. Qed.
Definition m768_p384 (b : bool) : krow := KRow b m768 (ADh P384) (if b then suite 2 2 else entrust 55).
Lemma ex_row b : In (m768_p384 b) all_rows.
Proof. unfold all_rows. apply in_or_app. destruct b; [right|left]; vm_compute; repeat (left; reflexivity) || right; left; reflexivity. Qed.

(** * C77: reading *)
(** Loading succeeds exactly on the structures described in HybLoadSpec.v, and yields the key they describe. *)
Theorem C77_load : forall L K o v d pub k, good_hlib L -> good_klib K -> is_bytes d = true ->
  load_oak L K o v d pub = Ok k <-> (v = 1 \/ (v = 0 /\ pub = None)) /\ oak_field L K o d pub k.
Proof. intros L K o v d pub k GL GK. exact (load_oak_iff L K GL GK o v d pub k). Qed.
(** The key is of the algorithm the structure names. *)
Theorem C77_load_algorithm : forall L K o v d pub k, good_hlib L -> good_klib K -> is_bytes d = true ->
  load_oak L K o v d pub = Ok k -> priv_oid L k = Ok o /\ pub_oid L (public L k) = Ok o.
Proof. intros L K o v d pub k GL GK B H. apply (oak_oid L K GK o d pub k). apply (load_oak_iff L K GL GK o v d pub k B) in H. apply H. Qed.
(** Every other identifier is refused. *)
Theorem C77_load_unknown : forall L K o v d pub,
  (forall r, In r all_rows -> o <> kr_oid r) -> (forall q c, ~ In (q, c, o) chempat_rows) -> o <> [1; 3; 6; 1; 4; 1; 62253; 25722] ->
  forall k, load_oak L K o v d pub <> Ok k.
Proof. exact load_oak_err. Qed.
Example C77_load_ex : (exists k, load_oak toyH toyK XWING_OID 0 ex_seed None = Ok (HX k)) /\
  (exists k, load_oak toyH toyK [1; 3; 6; 1; 5; 5; 7; 4; 9996; 9999; 3; 2; 22] 1 ([2; 0; 0; 0] ++ [8; 9] ++ [0; 7])
     (Some ([1; 2; 3; 4] ++ t_pub toy BP384 (be (curve_bits BP384) 7))) = Ok (HC k)) /\
  (exists k, load_oak toyH toyK (suite 1 11) 1 ([1; 2; 3] ++ [0; 6; 6]) (Some ([0; 0; 0; 0] ++ t_pub toy P384 [6; 6])) = Ok (HK k)).
Proof.
  split; [|split].
  - destruct ex_made as [k M]. exists k. apply (load_oak_iff toyH toyK toyH_good toyK_good); [reflexivity|]. split; [auto|].
    split; [reflexivity|]. split; [|auto]. left. auto.
  - eexists. vm_compute. reflexivity.
  - eexists. vm_compute. reflexivity.
Qed.
(** Public keys. *)
Theorem C77_spki : forall L K o d k, load_spki L K o d = Ok k <-> spki_field L K o d k.
Proof. exact load_spki_iff. Qed.
Theorem C77_spki_algorithm : forall L K o d k, load_spki L K o d = Ok k -> pub_oid L k = Ok o.
Proof. intros L K o d k H. apply (spki_oid L K o d k). apply load_spki_iff. exact H. Qed.
Theorem C77_spki_roundtrip : forall L K k o, pub_oid L k = Ok o -> hpub_reads L K k ->
  save_spki L k = Ok (o, public_bytes L k) /\ load_spki L K o (public_bytes L k) = Ok k.
Proof. exact spki_roundtrip. Qed.
Example C77_spki_ex : let k := QK {| kp_dhkem := true; kp_pq := {| pp_name := Frodo F976 false; pp_bytes := [1; 2; 3; 4] |}; kp_trad := PDh true P384 (repeat 4 97) |} in
  pub_oid toyH k = Ok (suite 3 5) /\ hpub_reads toyH toyK k.
Proof. cbv zeta. split; [vm_compute; reflexivity|]. split; [reflexivity|]. split; [reflexivity|]. vm_compute. reflexivity. Qed.

(** * C77: writing and reading back *)
(** What is written: the identifier of the key, and its public key exactly when asked for or with version 1. *)
Theorem C77_save : forall L K k v t inc o d pub, save_oak L K k v t inc = Ok (o, d, pub) ->
  priv_oid L k = Ok o /\ pub = if inc || (1 <=? v) then Some (public_bytes L (public L k)) else None.
Proof. intros L K k v t inc o d pub H. destruct (save_oak_fields L K k v t inc o d pub H) as (A & _ & B). auto. Qed.
(** X-Wing, in all three forms. *)
Theorem C77_xwing_roundtrip : forall L K seed k v t inc, good_hlib L -> good_klib K -> length seed = 32%nat ->
  xwing_made L seed (Some seed) k -> (v = 1 \/ (v = 0 /\ inc = false)) ->
  exists o d pub k', save_oak L K (HX k) v t inc = Ok (o, d, pub) /\ load_oak L K o v d pub = Ok (HX k') /\ same_xwing k k' /\
    xs_seed k' = match t with PqKeyModel.RAW => None | _ => Some seed end.
Proof. intros L K seed k v t inc GL GK. exact (oak_roundtrip_xwing L K GL GK seed k v t inc). Qed.
Example C77_xwing_ex : length ex_seed = 32%nat /\ exists k, xwing_made toyH ex_seed (Some ex_seed) k.
Proof. split; [reflexivity|exact ex_made]. Qed.
(** A key without a seed is written in the raw form only. *)
Theorem C77_xwing_no_seed : forall k t, xs_seed k = None -> t <> PqKeyModel.RAW -> forall d, xwing_save t k <> Ok d.
Proof. exact xwing_no_seed. Qed.
(** Keys of a 96 byte seed, which from_seed accepts: the seed form loses the seed, the combined form is not read back. *)
Lemma ex_made_long : exists seed k, length seed = 96%nat /\ xwing_made toyH seed (Some seed) k.
Proof.
  destruct ex_made as (k & e & q & He & Hq & _). pose proof (expanded_len toyH toyH_good _ _ He) as Le.
  exists e. eexists. split; [exact Le|]. exists e, q. split; [right; auto|]. split; [exact Hq|reflexivity].
Qed.
Theorem C77_xwing_long_seed_refuted :
  ~ (forall L, good_hlib L -> forall seed k d, xwing_made L seed (Some seed) k -> xwing_save PqKeyModel.SEED_AND_RAW k = Ok d ->
       exists k', load_xwing L d None = Ok k') /\
  ~ (forall L, good_hlib L -> forall seed k d k', xwing_made L seed (Some seed) k -> xwing_save PqKeyModel.SEED k = Ok d ->
       load_xwing L d None = Ok k' -> xs_seed k' = Some seed).
Proof.
  destruct ex_made_long as (seed & k & Ls & M). destruct (xwing_long toyH toyH_good seed k Ls M) as [(d1 & S1 & L1) (d2 & S2 & L2)]. split; intro H.
  - destruct (H toyH toyH_good seed k d2 M S2) as [k' Hk]. pose proof (eq_trans (eq_sym Hk) (L2 None)) as C. clear - C. discriminate C.
  - pose proof (H toyH toyH_good seed k d1 _ M S1 L1) as C. cbn [xs_seed] in C. clear - C. discriminate C.
Qed.
(** Chempat with ML-KEM, in all three forms. *)
Theorem C77_chempat_roundtrip : forall L K k a s v t inc o d pub, good_hlib L -> good_klib K ->
  cs_pq k = of_kem a s -> (exists sd, PqKeySpec.seeded (h_pq L) (PqKeyModel.Kem a) sd s) -> scalar_reads K (cs_curve k) (cs_trad k) ->
  (v = 1 \/ (v = 0 /\ inc = false)) -> save_oak L K (HC k) v t inc = Ok (o, d, pub) ->
  exists k', load_oak L K o v d pub = Ok (HC k') /\ same_pq (cs_pq k) (cs_pq k') /\ cs_curve k' = cs_curve k /\ cs_trad k' = cs_trad k /\
    ps_seed (cs_pq k') = match t with PqKeyModel.RAW => None | _ => ps_seed (cs_pq k) end.
Proof. intros L K k a s v t inc o d pub GL GK. exact (oak_roundtrip_chempat L K GL GK k a s v t inc o d pub). Qed.
(** With any post-quantum half whose loader reads what was written. *)
Theorem C77_chempat_roundtrip_any : forall L K k o t x q', good_hlib L -> good_klib K ->
  In (ps_name (cs_pq k), cs_curve k, o) chempat_rows -> scalar_reads K (cs_curve k) (cs_trad k) ->
  save_chempat K k t = Ok x -> (forall a, save_pq (cs_pq k) t = Ok a -> pq_field L K (ps_name (cs_pq k)) a q') ->
  length (ps_pub (cs_pq k)) = pq_pub_size K (ps_name (cs_pq k)) ->
  load_chempat L K o x None = Ok {| cs_pq := q'; cs_curve := cs_curve k; cs_trad := cs_trad k |} /\
  load_chempat L K o x (Some (chempat_public_bytes (chempat_public L k))) =
    Ok {| cs_pq := {| ps_name := ps_name (cs_pq k); ps_priv := ps_priv q'; ps_pub := ps_pub (cs_pq k); ps_seed := ps_seed q' |};
          cs_curve := cs_curve k; cs_trad := cs_trad k |}.
Proof. intros L K k o t x q' GL GK. exact (chempat_roundtrip L K GL GK k o t x q'). Qed.
Definition ex_ck (x : PqKeyModel.key) (c : curve) : cpriv := {| cs_pq := of_kem PqKeyModel.K768 x; cs_curve := c; cs_trad := be (curve_bits c) 77 |}.
Example C77_chempat_ex : scalar_reads toyK P256 (be (curve_bits P256) 77) /\
  forall s x, PqKeySpec.seeded (h_pq toyH) (PqKeyModel.Kem PqKeyModel.K768) s x -> exists o d pub, save_oak toyH toyK (HC (ex_ck x P256)) 1 PqKeyModel.SEED false = Ok (o, d, pub).
Proof.
  split.
  - cbn [scalar_reads is_ec toyK kl_value kl_derive]. rewrite value_be, Z.mod_small by (split; [lia|vm_compute; reflexivity]). split; [split; [lia|vm_compute; reflexivity]|reflexivity].
  - intros s x H. destruct (of_kem_facts toyH toyH_good PqKeyModel.K768 s x H) as (_ & _ & Sd & A).
    unfold save_oak. set (k := ex_ck x P256).
    assert (I : In (MlKem PqKeyModel.K768, P256, [1; 3; 6; 1; 5; 5; 7; 4; 9996; 9999; 3; 2; 14]) chempat_rows) by (vm_compute; tauto).
    assert (O : priv_oid toyH (HC k) = Ok [1; 3; 6; 1; 5; 5; 7; 4; 9996; 9999; 3; 2; 14]).
    { cbn [priv_oid]. apply chempat_oid_iff. exact I. }
    rewrite O. cbn [bind]. unfold save_chempat. cbn [k ex_ck cs_pq cs_curve cs_trad].
    destruct (PqKeyMore.save_total (h_pq toyH) (gh_pq _ toyH_good) _ s x PqKeyModel.SEED (proj1 H) (proj2 H)) as [b Hb].
    rewrite save_of_kem by exact A. rewrite Hb. cbn [bind].
    assert (Lb : exists l, to_le4 (Z.of_nat (length b)) = Ok l).
    { unfold PqKeyModel.save_private, PqKeyModel.private_numbers in Hb. rewrite A, Sd in Hb. cbn [bind] in Hb.
      assert (Ls : length s = 64%nat) by exact (proj1 H). unfold PqKeyModel.enc_choice in Hb. rewrite bind_ok in Hb. destruct Hb as (u & _ & Hb).
      assert (Q : b = PqKeyModel.tlv 128 s) by congruence. rewrite Q. unfold PqKeyModel.tlv. rewrite Ls. cbn [List.length]. rewrite app_length, Ls.
      eexists. reflexivity. }
    destruct Lb as [l Hl]. rewrite Hl. cbn [bind]. unfold dh_encode. cbn [is_ec toyK kl_value].
    assert (T : exists e, to_bytes (curve_bits P256) (value (be (curve_bits P256) 77)) = Ok e).
    { rewrite value_be, Z.mod_small by (split; [lia|vm_compute; reflexivity]). eexists. vm_compute. reflexivity. }
    destruct T as [e He]. rewrite He. cbn [bind orb]. change (1 <=? 1) with true. cbv iota.
    assert (O2 : pub_oid toyH (public toyH (HC k)) = Ok [1; 3; 6; 1; 5; 5; 7; 4; 9996; 9999; 3; 2; 14]) by exact O.
    rewrite O2. cbn [bind]. eauto.
Qed.
(** A public key with another traditional half is refused. *)
Theorem C77_chempat_mismatch : forall L K q c o l a b q' x pb rest y, In (q, c, o) chempat_rows ->
  le4 (length a) l -> pq_field L K q a q' -> dh_field K c b x ->
  length pb = pq_pub_size K q -> dh_pub_field L c rest y -> y <> t_pub (h_trad L) c x ->
  load_chempat L K o (l ++ a ++ b) (Some (pb ++ rest)) = Err EMismatchingKey.
Proof. exact chempat_mismatch. Qed.
(** A public key with another post-quantum half is accepted. *)
Theorem C77_chempat_public_refuted :
  (forall L K o d k pb rest q c, good_klib K -> is_bytes d = true -> In (q, c, o) chempat_rows -> length pb = pq_pub_size K q ->
     dh_pub_field L c rest (t_pub (h_trad L) c (cs_trad k)) -> load_chempat L K o d None = Ok k ->
     exists k', load_chempat L K o d (Some (pb ++ rest)) = Ok k' /\ ps_pub (cs_pq k') = pb) /\
  ~ (forall L K, good_hlib L -> good_klib K -> forall o d p k k', load_chempat L K o d None = Ok k -> load_chempat L K o d (Some p) = Ok k' ->
       p = chempat_public_bytes (chempat_public L k)).
Proof.
  assert (A : forall L K o d k pb rest q c, good_klib K -> is_bytes d = true -> In (q, c, o) chempat_rows -> length pb = pq_pub_size K q ->
     dh_pub_field L c rest (t_pub (h_trad L) c (cs_trad k)) -> load_chempat L K o d None = Ok k ->
     exists k', load_chempat L K o d (Some (pb ++ rest)) = Ok k' /\ ps_pub (cs_pq k') = pb).
  { intros L K o d k pb rest q c GK B I Lp Hr H. apply (load_chempat_iff L K GK q c o d None k I B) in H.
    destruct H as (l & a & b & q' & x & E1 & E2 & E3 & E4 & ->). cbn [cs_trad] in Hr. eexists. split; [|shelve].
    apply (load_chempat_iff L K GK q c o d _ _ I B). exists l, a, b, q', x. do 4 (split; [eassumption|]). exists pb, rest. do 3 (split; [solve [auto]|]). reflexivity.
    Unshelve. reflexivity. }
  split; [exact A|]. intro H.
  set (o := [1; 3; 6; 1; 5; 5; 7; 4; 9996; 9999; 3; 2; 22]). set (d := [2; 0; 0; 0; 8; 9; 0; 7]). set (r := t_pub toy BP384 (be (curve_bits BP384) 7)).
  assert (X : exists k, load_chempat toyH toyK o d None = Ok k /\ exists k', load_chempat toyH toyK o d (Some ([1; 2; 3; 4] ++ r)) = Ok k' /\
    chempat_public_bytes (chempat_public toyH k) = [0; 0; 0; 0] ++ r).
  { eexists. split; [vm_compute; reflexivity|]. eexists. split; vm_compute; reflexivity. }
  destruct X as (k & X1 & k' & X2 & X3). pose proof (H toyH toyK toyH_good toyK_good o d _ k k' X1 X2) as C. rewrite X3 in C. clear - C. discriminate C.
Qed.
(** The private number of an elliptic curve key is written with as many bytes as the curve has bits. *)
Theorem C77_chempat_scalar_refuted :
  (forall K k t x, save_chempat K k t = Ok x -> is_ec (cs_curve k) = true -> exists h e, x = h ++ e /\ length e = curve_bits (cs_curve k)) /\
  ~ (forall K c d b, dh_encode K c d = Ok b -> is_ec c = true -> (length b <= (curve_bits c + 7) / 8)%nat).
Proof.
  split.
  - intros K k t x H Ec. unfold save_chempat in H. rewrite bind_ok in H. destruct H as (a & _ & H). rewrite bind_ok in H. destruct H as (l & _ & H).
    rewrite bind_ok in H. destruct H as (e & He & H). assert (Q : x = (l ++ a) ++ e) by (rewrite <- app_assoc; congruence). exists (l ++ a), e. split; [exact Q|].
    unfold dh_encode in He. rewrite Ec in He. apply to_bytes_ok in He. destruct He as [_ ->]. apply be_length.
  - intro H. assert (X : exists b, dh_encode toyK P256 [1] = Ok b /\ length b = 256%nat) by (eexists; split; vm_compute; reflexivity).
    destruct X as (b & X1 & X2). pose proof (H toyK P256 [1] b X1 eq_refl) as C. rewrite X2 in C. vm_compute in C. clear - C. repeat (apply le_S_n in C). inversion C.
Qed.
(** Composite keys with their seed, in the default form. *)
Theorem C77_comp_roundtrip : forall L K k s v inc o d pub, good_hlib L -> good_klib K ->
  seeded_half L K (ks_pq k) s -> flags_ok k -> priv_reads K (ks_trad k) ->
  length (ps_pub (ks_pq k)) = pq_pub_size K (ps_name (ks_pq k)) -> pub_reads L K (trad_public (h_trad L) (ks_trad k)) ->
  (forall x, ks_trad k = SRsa x -> In (t_rsa_bits (h_trad L) (t_rsa_pub (h_trad L) x)) [2048; 3072; 4096]%N) ->
  (v = 1 \/ (v = 0 /\ inc = false)) -> save_oak L K (HK k) v PqKeyModel.SEED inc = Ok (o, d, pub) ->
  load_oak L K o v d pub = Ok (HK k).
Proof. intros L K k s v inc o d pub GL GK. exact (oak_roundtrip_comp L K GL GK k s v inc o d pub). Qed.
Definition ex_kk (x : PqKeyModel.key) (b : bool) : kpriv := mk_kpriv b (of_kem PqKeyModel.K768 x) (SDh false P384 [6; 6]).
Lemma ex_kk_row x b : key_row toyH (comp_public toyH (ex_kk x b)) (m768_p384 b).
Proof. split; [apply ex_row|]. destruct b; repeat split. Qed.
Example C77_comp_ex : forall b, exists s x, let k := ex_kk x b in
  seeded_half toyH toyK (ks_pq k) s /\ flags_ok k /\ priv_reads toyK (ks_trad k) /\ length (ps_pub (ks_pq k)) = pq_pub_size toyK (ps_name (ks_pq k)) /\
  pub_reads toyH toyK (trad_public toy (ks_trad k)) /\ exists o d pub, save_oak toyH toyK (HK k) 1 PqKeyModel.SEED false = Ok (o, d, pub).
Proof.
  intro b. destruct ex_kem as (s & x & H). exists s, x. cbv zeta. destruct (of_kem_facts toyH toyH_good PqKeyModel.K768 s x H) as (_ & Lp & Sd & A).
  assert (S : seeded_half toyH toyK (ks_pq (ex_kk x b)) s).
  { split; [exact Logic.I|]. split; [exact Sd|]. split; [exact (proj1 H)|]. exists x. auto. }
  split; [exact S|]. split; [destruct b; reflexivity|]. split; [destruct b; split; reflexivity|]. split; [exact Lp|].
  split; [destruct b; vm_compute; reflexivity|].
  assert (O2 : comp_oid toyH (comp_public toyH (ex_kk x b)) = Ok (kr_oid (m768_p384 b))) by (apply comp_oid_iff; exists (m768_p384 b); split; [apply ex_kk_row|reflexivity]).
  assert (O : priv_oid toyH (HK (ex_kk x b)) = Ok (kr_oid (m768_p384 b))).
  { cbn [priv_oid]. rewrite <- O2. apply comp_priv_oid_eq. intros k C. discriminate C. }
  unfold save_oak. rewrite O. cbn [bind]. rewrite (save_comp_seed toyH toyK toyH_good (ex_kk x b) s S). cbn [bind orb]. change (1 <=? 1) with true. cbv iota.
  cbn [public pub_oid]. rewrite O2. cbn [bind]. eauto.
Qed.
(** The other two forms of ML-KEM with x25519 and x448 are never read back. *)
Theorem C77_comp_raw_refuted :
  (forall L K r k a c s t x pub, good_hlib L -> good_klib K -> key_row L (comp_public L k) r -> kr_pq r = MlKem a -> kr_trad r = ADh c -> is_ec c = false ->
     seeded_half L K (ks_pq k) s -> priv_reads K (ks_trad k) -> t <> PqKeyModel.SEED -> save_comp K k t = Ok x ->
     forall k', load_comp L K (kr_oid r) x pub <> Ok k') /\
  ~ (forall L K r k t x, good_hlib L -> good_klib K -> key_row L (comp_public L k) r -> (exists s, seeded_half L K (ks_pq k) s) -> priv_reads K (ks_trad k) ->
       save_comp K k t = Ok x -> exists k', load_comp L K (kr_oid r) x None = Ok k').
Proof.
  assert (A : forall L K r k a c s t x pub, good_hlib L -> good_klib K -> key_row L (comp_public L k) r -> kr_pq r = MlKem a -> kr_trad r = ADh c -> is_ec c = false ->
     seeded_half L K (ks_pq k) s -> priv_reads K (ks_trad k) -> t <> PqKeyModel.SEED -> save_comp K k t = Ok x ->
     forall k', load_comp L K (kr_oid r) x pub <> Ok k').
  { intros L K r k a c s t x pub GL GK. exact (comp_raw_fails L K GL GK r k a c s t x pub). }
  split; [exact A|]. intro H. destruct ex_kem as (s & x & Hx). destruct (of_kem_facts toyH toyH_good PqKeyModel.K768 s x Hx) as (_ & _ & Sd & Ax).
  set (k := mk_kpriv false (of_kem PqKeyModel.K768 x) (SDh false X25519 (repeat 9 32))).
  assert (S : seeded_half toyH toyK (ks_pq k) s).
  { split; [exact Logic.I|]. split; [exact Sd|]. split; [exact (proj1 Hx)|]. exists x. auto. }
  assert (R : key_row toyH (comp_public toyH k) (KRow false m768 (ADh X25519) (entrust 53))).
  { split; [|repeat split]. unfold all_rows. apply in_or_app. left. unfold draft_rows. do 3 right. left. reflexivity. }
  assert (P : priv_reads toyK (ks_trad k)) by reflexivity.
  assert (Sv : exists y, save_comp toyK k PqKeyModel.RAW = Ok y).
  { unfold save_comp. cbn [k mk_kpriv ks_pq]. rewrite save_of_kem by exact Ax.
    destruct (PqKeyMore.save_total (h_pq toyH) (gh_pq _ toyH_good) _ s x PqKeyModel.RAW (proj1 Hx) (proj2 Hx)) as [b Hb]. rewrite Hb. cbn [bind]. eauto. }
  destruct Sv as [y Sv]. destruct (H toyH toyK _ k _ y toyH_good toyK_good R (ex_intro _ s S) P Sv) as [k' Hk].
  assert (Nt : PqKeyModel.RAW <> PqKeyModel.SEED) by (clear; discriminate).
  exact (A toyH toyK _ k PqKeyModel.K768 X25519 s PqKeyModel.RAW y None toyH_good toyK_good R eq_refl eq_refl eq_refl S P Nt Sv k' Hk).
Qed.
Print Assumptions C77_load.
Print Assumptions C77_load_algorithm.
Print Assumptions C77_load_unknown.
Print Assumptions C77_spki.
Print Assumptions C77_spki_algorithm.
Print Assumptions C77_spki_roundtrip.
Print Assumptions C77_save.
Print Assumptions C77_xwing_roundtrip.
Print Assumptions C77_xwing_no_seed.
Print Assumptions C77_xwing_long_seed_refuted.
Print Assumptions C77_chempat_roundtrip.
Print Assumptions C77_chempat_roundtrip_any.
Print Assumptions C77_chempat_mismatch.
Print Assumptions C77_chempat_public_refuted.
Print Assumptions C77_chempat_scalar_refuted.
Print Assumptions C77_comp_roundtrip.
Print Assumptions C77_comp_raw_refuted.
