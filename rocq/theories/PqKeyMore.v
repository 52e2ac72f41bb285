(** Export and import, attached public keys, use of key objects. *)
From Verif Require Import PqKeyModel PqKeySpec PqKeyProofs PreludeFacts LatFacts.
From Verif Require MlKemSpec MlDsaSpec SlhSpec MlKemMore MlDsaEnc MlDsaSig MlDsaTop SlhHt SlhTop.
Local Open Scope Z_scope.

Section More.
Variable E : env.
Hypothesis HE : good_env E.

(** * Export and import *)
Definition keeps_seed (a : alg) (t : save_type) : bool :=
  match t with SEED => true | RAW => false | SEED_AND_RAW => is_ml a end.

(** A structure without the version problem is handled by [from_one_asym_key]. *)
Lemma combined_v o mv2 : o_version o = 1 \/ o_version o = 0 /\ o_pub o = None -> combined_load E o mv2 = from_one_asym_key E o.
Proof. unfold combined_load. intros [->|[-> ->]]; reflexivity. Qed.
Lemma from_ml a (v : Z) x pub : is_ml a = true -> v = 0 \/ v = 1 ->
  from_one_asym_key E {| o_version := v; o_oid := Plain a; o_priv := x; o_pub := pub |} =
  match load_ml E a false x pub with inr r => r | inl _ => load_and_validate E a x pub end.
Proof. intros M Hv. unfold from_one_asym_key. cbn [o_version o_oid o_priv o_pub]. destruct Hv as [->| ->]; destruct a; try discriminate; reflexivity. Qed.
Lemma from_slh f s (v : Z) x pub : v = 0 \/ v = 1 ->
  from_one_asym_key E {| o_version := v; o_oid := Plain (Slh f s); o_priv := x; o_pub := pub |} = load_and_validate E (Slh f s) x pub.
Proof. intro Hv. unfold from_one_asym_key. cbn [o_version o_oid o_priv o_pub]. destruct Hv as [->| ->]; reflexivity. Qed.

Definition good_pub (k : key) (pub : option bytes) : Prop := pub = None \/ pub = Some (p_bytes (public_key k)).

Lemma check_ok a k pub : inv E a k -> good_pub k pub -> check_pub k pub = Ok k.
Proof. intros I [->| ->]; [reflexivity|]. apply (check_self E a k I). Qed.

Lemma saved_pub k (v : Z) inc : good_pub k (if inc || (v =? 1) then Some (p_bytes (public_key k)) else None).
Proof. destruct (_ || _); [right|left]; reflexivity. Qed.

Definition version_ok (v : Z) (inc : bool) : Prop := v = 1 \/ v = 0 /\ inc = false.
Lemma version_ok_v v inc : version_ok v inc -> v = 0 \/ v = 1.
Proof. intros [->|[-> _]]; auto. Qed.

(** The import of [x] with a correct public key, when [x] is what [save_private] makes of [k]. *)
Lemma load_saved a s k t x v pub : length s = std_seed a -> from_seed E a s = Ok k -> save_private k t = Ok x ->
  v = 0 \/ v = 1 -> good_pub k pub ->
  exists k', from_one_asym_key E {| o_version := v; o_oid := Plain a; o_priv := x; o_pub := pub |} = Ok k' /\ same_key k k' /\
    k_seed k' = (if keeps_seed a t then Some s else None).
Proof using HE.
  intros Ls K Sv Hv Hp. destruct (inv_seed E HE a s k K) as [I Sd]. pose proof I as (A & Lp & _).
  destruct (reload_raw E a k I) as (kr & Kr & Sr & Dr).
  assert (Kl : from_private_bytes E a s = Ok k) by (rewrite load_seed by exact Ls; exact K).
  assert (Hself : same_key k k) by (split; [|split]; reflexivity).
  assert (Hpr : good_pub kr pub) by (destruct Hp as [->| ->]; [left; reflexivity|right; f_equal; apply Sr]).
  assert (Ir : inv E a kr) by (apply (inv_load E HE _ _ _ Kr)).
  destruct (is_ml a) eqn:M.
  - rewrite from_ml by assumption. assert (Sv' : save_private k t = match t with
         | SEED => let! s := private_numbers k in enc_choice a (CSeed s)
         | RAW => enc_choice a (CRaw (k_priv k))
         | SEED_AND_RAW => let! s := private_numbers k in enc_choice a (CBoth s (k_priv k)) end)
       by (unfold save_private; rewrite A; destruct a; try discriminate; reflexivity).
    rewrite Sv' in Sv. clear Sv'. unfold private_numbers in Sv. rewrite Sd in Sv. cbn [bind] in Sv. rewrite priv_std in Lp. destruct t.
    + destruct (enc_dec a (CSeed s) Ls) as (y & Ey & Dy). assert (y = x) by congruence. subst y.
      rewrite (load_ml_choice E HE a x (CSeed s) k pub Dy I Kl). exists k. split; [apply (check_ok a k pub I Hp)|].
      split; [exact Hself|exact Sd].
    + destruct (enc_dec a (CRaw (k_priv k)) Lp) as (y & Ey & Dy). assert (y = x) by congruence. subst y.
      rewrite (load_ml_choice E HE a x (CRaw (k_priv k)) kr pub Dy Ir Kr). exists kr.
      split; [apply (check_ok a kr pub Ir Hpr)|]. split; [exact Sr|exact Dr].
    + destruct (enc_dec a (CBoth s (k_priv k)) (conj Ls Lp)) as (y & Ey & Dy). assert (y = x) by congruence. subst y.
      rewrite (load_ml_choice E HE a x (CBoth s (k_priv k)) k pub Dy I (conj Kl (ex_intro _ kr Kr))). exists k.
      split; [apply (check_ok a k pub I Hp)|]. split; [exact Hself|]. cbn [keeps_seed]. rewrite M. exact Sd.
  - destruct a as [a|a|f sl]; try discriminate. rewrite from_slh by exact Hv. unfold save_private in Sv. rewrite A in Sv.
    assert (Hcase : x = s /\ t = SEED \/ x = k_priv k /\ t <> SEED).
    { destruct t; [left|right|right]; unfold private_numbers in Sv; rewrite ?Sd in Sv; split; try discriminate; congruence. }
    destruct Hcase as [[-> ->]|[-> Ht]].
    + destruct (validate_ok E HE (Slh f sl) s k pub Kl Hp) as (k' & K' & Sk & Dk). exists k'. split; [exact K'|]. split; [exact Sk|].
      rewrite Dk. exact Sd.
    + destruct (validate_ok E HE (Slh f sl) (k_priv k) kr pub Kr Hpr) as (k' & K' & Sk & Dk). exists k'. split; [exact K'|].
      split; [apply (same_trans k kr k' Sr Sk)|]. rewrite Dk, Dr. destruct t; [congruence|reflexivity|reflexivity].
Qed.

Lemma save_total a s k t : length s = std_seed a -> from_seed E a s = Ok k -> exists x, save_private k t = Ok x.
Proof using HE.
  intros Ls K. destruct (inv_seed E HE a s k K) as [I Sd]. pose proof I as (A & Lp & _). rewrite priv_std in Lp.
  unfold save_private, private_numbers. rewrite A, Sd. cbn [bind].
  destruct (enc_dec a (CSeed s) Ls) as (y1 & E1 & _). destruct (enc_dec a (CRaw (k_priv k)) Lp) as (y2 & E2 & _).
  destruct (enc_dec a (CBoth s (k_priv k)) (conj Ls Lp)) as (y3 & E3 & _).
  destruct a, t; eauto.
Qed.

Theorem roundtrip a s k v t inc mv2 : seeded E a s k -> version_ok v inc ->
  exists o k', save_one_asym_key k v t inc = Ok o /\ combined_load E o mv2 = Ok k' /\ same_key k k' /\
    k_seed k' = (if keeps_seed a t then Some s else None).
Proof using HE.
  intros [Ls K] Hv. destruct (save_total a s k t Ls K) as (x & Sv). pose proof (proj1 (proj1 (inv_seed E HE a s k K))) as A.
  destruct (load_saved a s k t x v _ Ls K Sv (version_ok_v v inc Hv) (saved_pub k v inc)) as (k' & K' & Sk & Dk).
  eexists. exists k'. split; [unfold save_one_asym_key; rewrite Sv, A; reflexivity|]. split; [|split; assumption].
  rewrite combined_v; [exact K'|]. cbn [o_version o_pub]. destruct Hv as [->|[-> ->]]; [left; reflexivity|right; split; reflexivity].
Qed.

(** Keys without a known seed: the expanded form round-trips for every key that can be loaded. *)
Theorem roundtrip_raw a d k v inc mv2 : from_private_bytes E a d = Ok k -> version_ok v inc ->
  exists o k', save_one_asym_key k v RAW inc = Ok o /\ combined_load E o mv2 = Ok k' /\ same_key k k' /\ k_seed k' = None.
Proof using HE.
  intros K Hv. pose proof (inv_load E HE a d k K) as I. pose proof I as (A & Lp & _).
  destruct (reload_raw E a k I) as (kr & Kr & Sr & Dr). pose proof (inv_load E HE _ _ _ Kr) as Ir.
  assert (Hpr : good_pub kr (if inc || (v =? 1) then Some (p_bytes (public_key k)) else None)).
  { destruct (_ || _); [right; f_equal; apply Sr|left; reflexivity]. }
  assert (Sv : exists x, save_private k RAW = Ok x /\ exists k', from_one_asym_key E {| o_version := v; o_oid := Plain a; o_priv := x;
      o_pub := if inc || (v =? 1) then Some (p_bytes (public_key k)) else None |} = Ok k' /\ same_key k k' /\ k_seed k' = None).
  { destruct (is_ml a) eqn:M.
    - rewrite priv_std in Lp. destruct (enc_dec a (CRaw (k_priv k)) Lp) as (y & Ey & Dy). exists y.
      split; [unfold save_private; rewrite A; destruct a; try discriminate; exact Ey|].
      rewrite from_ml by (try exact M; apply (version_ok_v v inc Hv)).
      rewrite (load_ml_choice E HE a y (CRaw (k_priv k)) kr _ Dy Ir Kr). exists kr.
      split; [apply (check_ok a kr _ Ir Hpr)|]. split; assumption.
    - destruct a as [a|a|f sl]; try discriminate. exists (k_priv k). split; [unfold save_private; rewrite A; reflexivity|].
      rewrite from_slh by apply (version_ok_v v inc Hv).
      destruct (validate_ok E HE (Slh f sl) (k_priv k) kr _ Kr Hpr) as (k' & K' & Sk & Dk). exists k'. split; [exact K'|].
      split; [apply (same_trans k kr k' Sr Sk)|]. rewrite Dk. exact Dr. }
  destruct Sv as (x & Sv & k' & K' & Sk & Dk). eexists. exists k'. split; [unfold save_one_asym_key; rewrite Sv, A; reflexivity|].
  split; [|split; assumption]. rewrite combined_v; [exact K'|]. cbn [o_version o_pub].
  destruct Hv as [->|[-> ->]]; [left; reflexivity|right; split; reflexivity].
Qed.

(** A structure of version 0 with a public key, which save_private_key_one_asym_key writes on request, is refused. *)
Theorem version0_pub k t mv2 o : save_one_asym_key k 0 t true = Ok o -> combined_load E o mv2 = Err EInvalidKeyData.
Proof.
  unfold save_one_asym_key. destruct (save_private k t); [|discriminate]. cbn [bind]. intros [= <-]. reflexivity.
Qed.

(** What private_bytes writes: the seed, or the expanded key when there is no seed. *)
Definition written (k : key) : bytes := match k_seed k with Some (x :: s) => x :: s | _ => k_priv k end.
Lemma first_other a x d : x <> 4 -> x <> 48 -> x <> 128 -> dec_choice a (x :: d) = PBad.
Proof.
  intros H1 H2 H3. cbn [dec_choice]. rewrite (proj2 (Z.eqb_neq _ _) H1), (proj2 (Z.eqb_neq _ _) H2), (proj2 (Z.eqb_neq _ _) H3). reflexivity.
Qed.
(** Is a byte string one that the CHOICE decoder leaves to the fallback? *)
Definition not_der (d : bytes) : Prop := match d with [] => False | x :: _ => x <> 4 /\ x <> 48 /\ x <> 128 end.
Lemma load_written a d k k' pub v : from_private_bytes E a d = Ok k -> same_key k k' -> (is_ml a = true -> not_der d) -> v = 0 \/ v = 1 ->
  good_pub k' pub -> exists k'', from_one_asym_key E {| o_version := v; o_oid := Plain a; o_priv := d; o_pub := pub |} = Ok k'' /\
    same_key k' k'' /\ k_seed k'' = k_seed k.
Proof using HE.
  intros K Hs Hd Hv Hp.
  assert (Hp' : good_pub k pub) by (destruct Hp as [->| ->]; [left; reflexivity|right; f_equal; symmetry; apply Hs]).
  destruct (validate_ok E HE a d k pub K Hp') as (k2 & K2 & S2 & D2). exists k2. split; [|split; [apply (same_trans k' k k2 (same_sym _ _ Hs) S2)|exact D2]].
  destruct (is_ml a) eqn:M.
  - rewrite from_ml by assumption. specialize (Hd eq_refl). destruct d as [|x d]; [destruct Hd|]. destruct Hd as (H1 & H2 & H3).
    unfold load_ml. rewrite first_other by assumption. exact K2.
  - destruct a as [a|a|f sl]; try discriminate. rewrite from_slh by exact Hv. exact K2.
Qed.
Theorem der_roundtrip a s k mv2 : seeded E a s k -> (is_ml a = true -> not_der s) ->
  exists k', combined_load E (to_one_asym_key k) mv2 = Ok k' /\ same_key k k' /\ k_seed k' = Some s.
Proof using HE.
  intros [Ls K] Hd. destruct (inv_seed E HE a s k K) as [I Sd]. pose proof (proj1 I) as A.
  rewrite combined_v by (left; reflexivity). unfold to_one_asym_key. rewrite A.
  assert (W : match k_seed k with Some (x :: s) => x :: s | _ => k_priv k end = s).
  { rewrite Sd. destruct s as [|x s]; [|reflexivity]. pose proof (proj1 (small a)). cbn [length] in Ls. lia. }
  rewrite W. rewrite <- Sd. apply (load_written a s k k); [rewrite load_seed by exact Ls; exact K|split; [|split]; reflexivity|exact Hd|right; reflexivity|right; reflexivity].
Qed.
Theorem der_roundtrip_raw a d k mv2 : length d = std_priv a -> from_private_bytes E a d = Ok k -> (is_ml a = true -> not_der d) ->
  exists k', combined_load E (to_one_asym_key k) mv2 = Ok k' /\ same_key k k' /\ k_seed k' = None.
Proof using HE.
  intros L K Hd. pose proof (inv_load E HE a d k K) as I. pose proof (proj1 I) as A.
  pose proof K as K0. rewrite load_raw in K0 by exact L. rewrite <- priv_std in L. destruct (inv_new E a d None k L K0) as (_ & Sd & Pd).
  rewrite combined_v by (left; reflexivity). unfold to_one_asym_key. rewrite A, Sd, Pd.
  assert (X : None = k_seed k) by (symmetry; exact Sd). rewrite X.
  apply (load_written a d k k); [exact K|split; [|split]; reflexivity|exact Hd|right; reflexivity|right; reflexivity].
Qed.
Lemma ml_big a : is_ml a = true -> (128 <= std_priv a)%nat.
Proof. destruct a as [[]|[]|]; try discriminate; intros _; apply Nat.leb_le; reflexivity. Qed.
(** A seed that looks like a short OCTET STRING is refused. *)
Theorem der_refused a l d k mv2 : is_ml a = true -> 0 <= l < 128 -> l <= Z.of_nat (length d) -> seeded E a (4 :: l :: d) k ->
  combined_load E (to_one_asym_key k) mv2 = Err EInvalidKeyData.
Proof using HE.
  intros M Hl Hd [Ls K]. destruct (inv_seed E HE a _ k K) as [I Sd]. pose proof (proj1 I) as A.
  rewrite combined_v by (left; reflexivity). unfold to_one_asym_key. rewrite A, Sd. rewrite from_ml by (try exact M; right; reflexivity).
  unfold load_ml. assert (D : dec_choice a (4 :: l :: d) = PConstraint).
  { cbn [dec_choice]. change (4 =? 128) with false. change (4 =? 4) with true. cbv iota. cbn [dec_octets].
    change (4 =? 4) with true. cbn [negb dec_len]. rewrite (proj2 (Z.ltb_lt l 128)) by lia. cbn [pbind].
    rewrite (proj2 (Z.ltb_ge _ _)) by lia. rewrite priv_std, (proj2 (Z.eqb_neq _ _)); [reflexivity|].
    pose proof (ml_big a M). lia. }
  rewrite D. reflexivity.
Qed.

(** * Attached public keys *)
Lemma from_public_ok a b p : from_public_bytes a b = Ok p -> p = {| p_alg := a; p_bytes := b |} /\ length b = pub_size a.
Proof.
  unfold from_public_bytes. destruct (Nat.eqb_spec (length b) (pub_size a)) as [L|L]; [|discriminate]. cbn [guard bind]. intros [= <-]. auto.
Qed.
Lemma pkey_eq_bytes p q : pkey_eq p q = true -> p_bytes p = p_bytes q.
Proof. unfold pkey_eq. intro H. apply andb_prop in H as [_ H]. apply bytes_eqb_eq. exact H. Qed.

Definition without_pub (o : oak) : oak := {| o_version := o_version o; o_oid := o_oid o; o_priv := o_priv o; o_pub := None |}.

Lemma load_ml_pub a ph x b k : load_ml E a ph x (Some b) = inr (Ok k) ->
  load_ml E a ph x None = inr (Ok k) /\ p_bytes (public_key k) = b.
Proof.
  unfold load_ml. destruct ph; [discriminate|]. destruct (dec_choice a x) as [[c rest]| |]; [|discriminate|discriminate].
  intro H. assert (H' : (let! _ := guard match rest with [] => true | _ :: _ => false end EInvalidKeyData in
     let! k := match c with
               | CSeed s => from_private_bytes E a s | CRaw r => from_private_bytes E a r
               | CBoth s r => let! k := from_private_bytes E a s in let! k2 := from_private_bytes E a r in
                              let! _ := guard (key_eq k k2) EMismatchingKey in Ok k end in check_pub k (Some b)) = Ok k) by congruence.
  clear H. destruct (guard _ _); [|discriminate]. cbn [bind] in *. destruct (match c with CSeed _ => _ | CRaw _ => _ | CBoth _ _ => _ end) as [k1|]; [|discriminate].
  cbn [bind] in *. unfold check_pub in H'. destruct (from_public_bytes _ _) as [p|] eqn:P; [|discriminate]. cbn [bind] in H'.
  destruct (pkey_eq _ p) eqn:Q; [|discriminate]. cbn [guard bind] in H'. injection H' as ->. split; [reflexivity|].
  apply from_public_ok in P as [-> _]. apply pkey_eq_bytes in Q. exact Q.
Qed.
Lemma load_ml_inl a ph x pub pub' : load_ml E a ph x pub = inl tt -> load_ml E a ph x pub' = inl tt.
Proof. unfold load_ml. destruct ph; [discriminate|]. destruct (dec_choice a x) as [[c rest]| |]; [discriminate|reflexivity|discriminate]. Qed.
Lemma new_key_some a r b sd : new_key E a r (Some b) sd = Ok {| k_alg := a; k_priv := r; k_pub := Some b; k_seed := sd |}.
Proof. destruct a; reflexivity. Qed.
Lemma validate_pub a d b k : b <> [] -> load_and_validate E a d (Some b) = Ok k ->
  exists k0, load_and_validate E a d None = Ok k0 /\ same_key k0 k /\ k_seed k0 = k_seed k /\ p_bytes (public_key k0) = b.
Proof using HE.
  intros Hb H. unfold load_and_validate in *. destruct (from_private_bytes E a d) as [k1|] eqn:K; [|discriminate]. cbn [bind] in *.
  destruct (inv_load E HE a d k1 K) as (A & _ & _ & N). destruct (N (k_seed k1)) as (k0 & K0 & S0 & D0).
  exists k0. split; [exact K0|]. destruct b as [|x b]; [congruence|].
  destruct (from_public_bytes a (x :: b)) as [p|] eqn:P; [|discriminate]. cbn [bind] in H.
  destruct (pkey_eq (public_key k1) p) eqn:Q; [|discriminate]. cbn [guard bind] in H.
  rewrite new_key_some in H.
  assert (Hk : k = {| k_alg := a; k_priv := k_priv k1; k_pub := Some (x :: b); k_seed := k_seed k1 |})
    by (injection H as H; symmetry; exact H).
  apply from_public_ok in P as [-> _]. apply pkey_eq_bytes in Q. cbn [p_bytes] in Q. destruct S0 as (S1 & S2 & S3). subst k.
  split; [split; [|split]; cbn [k_alg k_priv]; [congruence|congruence|change (p_bytes (public_key k0) = x :: b); rewrite <- S3; exact Q]|].
  split; [exact D0|]. rewrite <- S3. exact Q.
Qed.

Theorem attached a o b k mv2 : o_oid o = Plain a \/ o_oid o = PreHash a -> o_pub o = Some b -> b <> [] -> combined_load E o mv2 = Ok k ->
  exists k0, combined_load E (without_pub o) mv2 = Ok k0 /\ same_key k0 k /\ p_bytes (public_key k0) = b.
Proof using HE.
  intros Ho Hp Hb. unfold combined_load. destruct ((o_version o =? 0) || (o_version o =? 1)) eqn:V; [|discriminate]. cbn [guard bind].
  destruct (negb _) eqn:V2; [|discriminate]. cbn [guard bind]. cbn [without_pub o_version o_pub]. rewrite V, andb_false_r. cbn [negb guard bind].
  unfold from_one_asym_key. cbn [without_pub o_version o_oid o_priv o_pub]. rewrite V. cbn [guard bind]. rewrite Hp.
  assert (G : forall ph, match a with Slh _ _ => load_and_validate E a (o_priv o) (Some b)
      | _ => match load_ml E a ph (o_priv o) (Some b) with inr r => r | inl _ => load_and_validate E a (o_priv o) (Some b) end end = Ok k ->
    exists k0, match a with Slh _ _ => load_and_validate E a (o_priv o) None
      | _ => match load_ml E a ph (o_priv o) None with inr r => r | inl _ => load_and_validate E a (o_priv o) None end end = Ok k0 /\
      same_key k0 k /\ p_bytes (public_key k0) = b).
  { intros ph H. destruct (is_ml a) eqn:M.
    - assert (H' : match load_ml E a ph (o_priv o) (Some b) with inr r => r | inl _ => load_and_validate E a (o_priv o) (Some b) end = Ok k)
        by (destruct a; try discriminate M; exact H). clear H.
      assert (G : exists k0, match load_ml E a ph (o_priv o) None with inr r => r | inl _ => load_and_validate E a (o_priv o) None end = Ok k0 /\
        same_key k0 k /\ p_bytes (public_key k0) = b).
      { destruct (load_ml E a ph (o_priv o) (Some b)) as [[]|r] eqn:L.
        - rewrite (load_ml_inl a ph (o_priv o) (Some b) None L). destruct (validate_pub a (o_priv o) b k Hb H') as (k0 & K0 & S0 & _ & P0).
          exists k0. auto.
        - rewrite H' in L. destruct (load_ml_pub a ph (o_priv o) b k L) as [L1 L2]. exists k. rewrite L1.
          split; [reflexivity|]. split; [split; [|split]; reflexivity|exact L2]. }
      destruct a; try discriminate M; exact G.
    - destruct a; try discriminate M. destruct (validate_pub _ (o_priv o) b k Hb H) as (k0 & K0 & S0 & _ & P0). exists k0. auto. }
  destruct Ho as [-> | ->]; apply G.
Qed.

(** A public key of the right size that is not the key's own is refused. *)
Lemma check_mismatch a k b : inv E a k -> length b = pub_size a -> b <> p_bytes (public_key k) -> check_pub k (Some b) = Err EMismatchingKey.
Proof.
  intros (A & _) L Hn. unfold check_pub, from_public_bytes. rewrite A, L, Nat.eqb_refl. cbn [guard bind].
  destruct (pkey_eq _ _) eqn:Q; [|reflexivity]. apply pkey_eq_bytes in Q. cbn [p_bytes] in Q. congruence.
Qed.
Lemma load_ml_inv a ph x k : load_ml E a ph x None = inr (Ok k) -> inv E a k /\ forall pub, load_ml E a ph x pub = inr (check_pub k pub).
Proof using HE.
  unfold load_ml. destruct ph; [discriminate|]. destruct (dec_choice a x) as [[c rest]| |]; [|discriminate|discriminate].
  destruct (guard match rest with [] => true | _ :: _ => false end EInvalidKeyData); [|discriminate]. cbn [bind].
  destruct (match c with CSeed _ => _ | CRaw _ => _ | CBoth _ _ => _ end) as [k1|] eqn:C; [|discriminate]. cbn [bind check_pub].
  intro H. assert (k1 = k) by congruence. subst k1. split; [|intro pub; reflexivity]. destruct c as [s|r|s r].
  - apply (inv_load E HE _ _ _ C).
  - apply (inv_load E HE _ _ _ C).
  - destruct (from_private_bytes E a s) as [k2|] eqn:K2; [|discriminate]. cbn [bind] in C. destruct (from_private_bytes E a r); [|discriminate].
    cbn [bind] in C. destruct (key_eq _ _); [|discriminate]. cbn [guard bind] in C. assert (k2 = k) by congruence. subst k2. apply (inv_load E HE _ _ _ K2).
Qed.
Lemma validate_mismatch a d b k : load_and_validate E a d None = Ok k -> length b = pub_size a -> b <> p_bytes (public_key k) ->
  load_and_validate E a d (Some b) = Err EMismatchingKey.
Proof using HE.
  intros H L Hn. unfold load_and_validate in *. destruct (from_private_bytes E a d) as [k1|] eqn:K; [|discriminate]. cbn [bind] in *.
  destruct (inv_load E HE a d k1 K) as (A & _ & _ & N). destruct (N (k_seed k1)) as (k0 & K0 & (S1 & S2 & S3) & D0).
  assert (k0 = k) by congruence. subst k0. pose proof (pub_pos a) as Pp. rewrite <- pub_std in Pp.
  destruct b as [|x b]; [cbn [length] in L; lia|]. unfold from_public_bytes. rewrite L, Nat.eqb_refl. cbn [guard bind].
  destruct (pkey_eq _ _) eqn:Q; [|reflexivity]. apply pkey_eq_bytes in Q. cbn [p_bytes] in Q. congruence.
Qed.
Theorem mismatch a x b k0 mv2 : combined_load E {| o_version := 1; o_oid := Plain a; o_priv := x; o_pub := None |} mv2 = Ok k0 ->
  length b = std_pub a -> b <> p_bytes (public_key k0) ->
  combined_load E {| o_version := 1; o_oid := Plain a; o_priv := x; o_pub := Some b |} mv2 = Err EMismatchingKey.
Proof using HE.
  rewrite !combined_v by (left; reflexivity). intros H L Hn. rewrite <- pub_std in L. destruct (is_ml a) eqn:M.
  - rewrite from_ml in * by (try exact M; right; reflexivity). destruct (load_ml E a false x None) as [[]|r] eqn:G.
    + rewrite (load_ml_inl a false x None (Some b) G). apply (validate_mismatch a x b k0 H L Hn).
    + rewrite H in G. destruct (load_ml_inv a false x k0 G) as [I F]. rewrite F. apply (check_mismatch a k0 b I L Hn).
  - destruct a; try discriminate M. rewrite from_slh in * by (right; reflexivity). apply (validate_mismatch _ x b k0 H L Hn).
Qed.
(** An empty public key is accepted with a key in the raw form, and becomes the key's public key. *)
Theorem empty_pub a s k mv2 : seeded E a s k -> (is_ml a = true -> not_der s) ->
  exists k', combined_load E {| o_version := 1; o_oid := Plain a; o_priv := s; o_pub := Some [] |} mv2 = Ok k' /\
    k_priv k' = k_priv k /\ p_bytes (public_key k') = [].
Proof.
  intros [Ls K] Hd. rewrite combined_v by (left; reflexivity).
  assert (V : load_and_validate E a s (Some []) = Ok {| k_alg := a; k_priv := k_priv k; k_pub := Some []; k_seed := k_seed k |}).
  { unfold load_and_validate. rewrite load_seed by exact Ls. rewrite K. cbn [bind]. destruct a; reflexivity. }
  exists {| k_alg := a; k_priv := k_priv k; k_pub := Some []; k_seed := k_seed k |}. split; [|split; reflexivity].
  destruct (is_ml a) eqn:M.
  - rewrite from_ml by (try exact M; right; reflexivity). specialize (Hd eq_refl). destruct s as [|x s]; [destruct Hd|].
    destruct Hd as (H1 & H2 & H3). unfold load_ml. rewrite first_other by assumption. exact V.
  - destruct a; try discriminate M. rewrite from_slh by (right; reflexivity). exact V.
Qed.

(** * Seed and expanded key together *)
Theorem both_checked a s r k : (forall n, a <> Kem n) -> length s = std_seed a -> length r = std_priv a ->
  from_private_bytes E a (s ++ r) = Ok k -> from_seed E a s = Ok k /\ k_priv k = r.
Proof.
  intros Hk Ls Lr. rewrite load_both by assumption. destruct a as [a|a|f sl]; [destruct (Hk a eq_refl)| |];
    (destruct (from_seed E _ s) as [k1|]; [|discriminate]; cbn [bind]; destruct (bytes_eqb (k_priv k1) r) eqn:B; [|discriminate];
     cbn [guard bind]; intros [= <-]; split; [reflexivity|apply bytes_eqb_eq; exact B]).
Qed.
Theorem choice_both_unchecked a s r k k2 pub : is_ml a = true -> seeded E a s k -> length r = std_priv a ->
  from_private_bytes E a r = Ok k2 -> pub = None \/ pub = Some (p_bytes (public_key k)) ->
  exists x, enc_choice a (CBoth s r) = Ok x /\
    from_one_asym_key E {| o_version := 1; o_oid := Plain a; o_priv := x; o_pub := pub |} = Ok k.
Proof using HE.
  intros M [Ls K] Lr K2 Hp. destruct (enc_dec a (CBoth s r) (conj Ls Lr)) as (x & Ex & Dx). exists x. split; [exact Ex|].
  destruct (inv_seed E HE a s k K) as [I _]. rewrite from_ml by (try exact M; right; reflexivity).
  rewrite (load_ml_choice E HE a x (CBoth s r) k pub Dx I); [apply (check_ok a k pub I Hp)|].
  split; [rewrite load_seed by exact Ls; exact K|]. exists k2. exact K2.
Qed.
End More.
