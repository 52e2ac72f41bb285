(** Proofs about the KEM-based MAC (property C90). *)
From Coq Require Import String Ascii Lia.
From Verif Require Import Prelude PreludeFacts PyStr PyStrProofs CompLoadModel HdrModel ProtTab ProtModel ProtSpec ProtMac ProtMacMsg ProtDh ProtSig.
Open Scope string_scope.
Open Scope Z_scope.
Local Notation length := List.length.

Lemma load_kem : forall L p e k c n m,
  load sel_kem (l_dec_kem L) (Some e) p = Ok (k, c, n, m) <-> seen (l_dec_kem L) p (PKem k c n m) (k, c, n, m).
Proof. seen_tac. Qed.
Lemma load_alg_lax : forall L p a, load sel_alg (l_dec_alg L) None p = Ok a <-> seen_lax (l_dec_alg L) p (PAlg a) a.
Proof.
  intros L p n; unfold load, seen_lax; split.
  - destruct p; cbn [sel_alg]; try discriminate.
    + destruct (l_dec_alg L b) as [[x [|y r]]|] eqn:E; intro H; inversion H; subst; right; eauto.
    + destruct (l_dec_alg L b) as [[x [|y r]]|] eqn:E; intro H; inversion H; subst; right; eauto.
    + intro H; inversion H; now left.
  - intros [->|(b & r & [-> | ->] & E)]; [reflexivity| |]; cbn [sel_alg]; rewrite E; destruct r; reflexivity.
Qed.
Lemma hkdf_fwd : forall o n h i, lookup o HKDF_OID_2_NAME = Some n -> part1 n = Ok h -> hash_name_to_instance h = Ok i -> In (o, i) hkdfs.
Proof.
  intros o n h i H P I. apply lookup_In in H. cbv [HKDF_OID_2_NAME In] in H. enum H; cbv in P; inversion P; subst; cbv in I; inversion I; subst; cbn; tauto.
Qed.
Lemma inst_known : forall n h, hash_name_to_instance n = Ok h -> exists d, lookup h ALLOWED_HASH_TYPES = Some d.
Proof.
  intros n h H. unfold hash_name_to_instance in H. apply bind_inv in H as (x & _ & H). apply bind_inv in H as ([] & G & H).
  apply guard_err_false in G. inversion H; subst x. unfold has in G. destruct (lookup h ALLOWED_HASH_TYPES); [eauto|discriminate].
Qed.
Lemma ansi_neg : forall L ss want other name v2 h, hash_name_to_instance name = Ok h -> want <= 0 ->
  compute_ansi_x9_63_kdf L ss want other name v2 = Ok [].
Proof.
  intros L ss want other name v2 h N W. unfold compute_ansi_x9_63_kdf. rewrite N. cbn [bind].
  replace (Z.to_nat want) with 0%nat by lia. unfold ansi_loop. change (Z.of_nat (length (@nil Z))) with 0.
  replace (0 <? want) with false by (symmetry; apply Z.ltb_ge; lia). reflexivity.
Qed.
Lemma ansi_iff : forall L ss want other name v2 h d r, prim_ok L -> hash_name_to_instance name = Ok h ->
  lookup h ALLOWED_HASH_TYPES = Some d ->
  (compute_ansi_x9_63_kdf L ss want other name v2 = Ok r <->
   want <= 4294967295 * d /\ r = firstn (Z.to_nat want) (kdf_stream L h v2 ss other (blocks_for want d))).
Proof.
  intros L ss want other name v2 h d r P N H. pose proof (digest_range _ _ H) as RD.
  destruct (Z_lt_le_dec (4294967295 * d) want) as [O|O].
  { rewrite (ansi_overflow L ss want other name v2 h d P N H O). split; [discriminate|intros (X & _); lia]. }
  destruct (Z_lt_le_dec want 0) as [M|M].
  { rewrite (ansi_neg L ss want other name v2 h N) by lia. replace (Z.to_nat want) with 0%nat by lia. cbn [firstn].
    split; [intro X; inversion X; split; [lia|reflexivity]|intros (_ & ->); reflexivity]. }
  destruct (ansi_exact L ss want other name v2 h d P N H (conj M O)) as (r0 & E & R & _). rewrite E, <- R.
  split; [intro X; inversion X; auto|intros (_ & ->); reflexivity].
Qed.

Theorem kdf_exact : forall L a ss len oi mk, prim_ok L ->
  (compute_kdf_from_alg_id L a ss len oi = Ok mk <-> kem_key L a ss len oi mk).
Proof.
  intros L a ss len oi mk P. unfold compute_kdf_from_alg_id. split.
  - destruct a as [o p]. cbn [a_oid a_params]. destruct (lookup o HKDF_OID_2_NAME) as [n|] eqn:E.
    { intro H. apply bind_inv in H as (h & P1 & H). unfold compute_hkdf in H. apply bind_inv in H as (i & I & H).
      exact (KK_hkdf L o p i ss len oi mk (hkdf_fwd _ _ _ _ E P1 I) H). }
    destruct (str_mem o ["id_kdf_kdf2"; "id_kdf_kdf3"]) eqn:M.
    { apply str_mem_In in M. intro H. apply bind_inv in H as (sa & S & H). apply load_alg_lax in S.
      apply bind_inv in H as (hn & G & H). destruct hn as [n|]; [|discriminate H].
      destruct (owf_fwd _ _ G) as (h & N & I). destruct (inst_known _ _ N) as (d & D).
      cbn [In] in M. destruct M as [<-|[<-|[]]]; destruct (proj1 (ansi_iff L ss len oi n _ h d mk P N D) H) as (B & ->).
      - exact (KK_kdf2 L p sa h d ss len oi S I D B).
      - exact (KK_kdf3 L p sa h d ss len oi S I D B). }
    destruct (String.eqb_spec o "id_PBKDF2") as [->|]; [|discriminate].
    destruct p; cbn [sel_pbkdf2]; try discriminate.
    + destruct (l_dec_alg L b); discriminate.
    + destruct (l_dec_alg L b); discriminate.
    + intro H. apply bind_inv in H as ([] & G & H). apply guard_err_false in G. cbn [snd] in G.
      unfold compute_pbkdf2_from_parameter in H. apply bind_inv in H as (s & S & H). apply bind_inv in H as (n & N & H).
      destruct salt as [b|]; [|discriminate S]. destruct keylen as [kl|]; [|discriminate N]. inversion S; inversion N; subst.
      apply bind_inv in H as (h & HH & H). destruct h as [nm|]; [|discriminate H]. apply bind_inv in H as (i & I & H).
      apply (KK_pbkdf2 L s iterations n prf i ss len oi mk); [|exact H].
      clear - G HH I. apply has_In in G. remember (a_oid prf) as o eqn:E. clear E prf. cbv [HMAC_OID_2_NAME List.map fst In] in G.
      repeat (destruct G as [G|G]; [subst o; cbv in HH; inversion HH; subst nm; cbv in I; inversion I; subst i; cbn; tauto|]). destruct G.
  - intro H. destruct H as [o' p' h ss len oi mk I H|p' sa h d ss len oi S I D B|p' sa h d ss len oi S I D B|salt iter n prf h ss len oi mk I H].
    + cbn [a_oid a_params]. cbv [hkdfs In] in I. enum I; exact H.
    + cbn [a_oid a_params]. change (lookup "id_kdf_kdf2" HKDF_OID_2_NAME) with (@None string).
      change (str_mem "id_kdf_kdf2" ["id_kdf_kdf2"; "id_kdf_kdf3"]) with true. cbv iota.
      rewrite (proj2 (load_alg_lax L p' sa) S). cbn [bind]. destruct (owf_back _ _ I) as (nm & E1 & E2). rewrite E1. cbn [bind].
      apply (ansi_iff L ss len oi nm _ h d _ P E2 D). auto.
    + cbn [a_oid a_params]. change (lookup "id_kdf_kdf3" HKDF_OID_2_NAME) with (@None string).
      change (str_mem "id_kdf_kdf3" ["id_kdf_kdf2"; "id_kdf_kdf3"]) with true. cbv iota.
      rewrite (proj2 (load_alg_lax L p' sa) S). cbn [bind]. destruct (owf_back _ _ I) as (nm & E1 & E2). rewrite E1. cbn [bind].
      apply (ansi_iff L ss len oi nm _ h d _ P E2 D). auto.
    + cbn [a_oid a_params]. change (lookup "id_PBKDF2" HKDF_OID_2_NAME) with (@None string).
      change (str_mem "id_PBKDF2" ["id_kdf_kdf2"; "id_kdf_kdf3"]) with false. cbv iota.
      change (String.eqb "id_PBKDF2" "id_PBKDF2") with true. cbv iota. cbn [sel_pbkdf2 snd].
      assert (G : has (a_oid prf) HMAC_OID_2_NAME = true /\ exists n, get_hash_from_oid (a_oid prf) true = Ok (Some n) /\ hash_name_to_instance n = Ok h).
      { clear - I. remember (a_oid prf) as o eqn:E. clear E. cbv [hmacs In] in I. enum I; (split; [reflexivity|eexists; split; reflexivity]). }
      destruct G as (G1 & nm & G2 & G3). rewrite G1. cbn [guard bind compute_pbkdf2_from_parameter].
      unfold compute_pbkdf2_from_parameter. cbn [bind]. rewrite G2. cbn [bind]. rewrite G3. exact H.
Qed.

Theorem kem_exact : forall L data a ss tx v, prim_ok L -> a_oid a = "id_KemBasedMac" ->
  (compute_kem_based_mac_from_alg_id L data a ss tx = Ok v <-> kem_value L a ss tx data v).
Proof.
  intros L data [o p] ss tx v P HO. cbn [a_oid] in HO. subst o. unfold compute_kem_based_mac_from_alg_id. cbn [a_params].
  assert (OI : forall ctx, match match ctx with None => [] | Some c => c end with [] => None | _ => Some (match ctx with None => [] | Some c => c end) end = kem_context ctx)
    by (intros [[|]|]; reflexivity).
  split.
  - intro H. apply bind_inv in H as ([[[kdf ctx] len] mac] & Q & H).
    assert (S : load sel_kem (l_dec_kem L) (Some EBadAsn1Data) p = Ok (kdf, ctx, len, mac))
      by (destruct (load sel_kem (l_dec_kem L) (Some EBadAsn1Data) p) as [y|[]]; try discriminate Q; exact Q).
    apply load_kem in S. cbv zeta in H. rewrite OI in H. apply bind_inv in H as (mk & K & H). apply (kdf_exact L _ _ _ _ _ P) in K.
    destruct (hmac_hash_cases (a_oid mac)) as [E|(h & E)]; rewrite E in H.
    + destruct (has (a_oid mac) KMAC_OID_2_NAME) eqn:HK; [|discriminate H].
      destruct (proj1 (kmac_spec L mac data mk v) (conj HK H)) as (h & I & PA & V). destruct mac as [mo mp]. cbn [a_oid a_params] in I, PA. subst mp.
      exact (KV_kmac L p kdf ctx len mo h ss tx data mk v S I K V).
    + cbn [bind] in H. apply hmac_hash_spec in E. rewrite (hmac_ok _ _ _ _ _ E) in H. inversion H; subst v.
      exact (KV_hmac L p kdf ctx len mac h ss tx data mk S E K).
  - intro H. remember (Alg "id_KemBasedMac" p) as a eqn:EA.
    destruct H as [p' kdf ctx len mac h ss tx data mk S I K|p' kdf ctx len mac h ss tx data mk v S I K V]; inversion EA; subst p'.
    + rewrite (proj2 (load_kem L p EBadAsn1Data _ _ _ _) S). cbn [bind]. cbv zeta. rewrite OI, (proj2 (kdf_exact L _ _ _ _ _ P) K). cbn [bind].
      rewrite (proj2 (hmac_hash_spec _ _) I). cbn [bind]. exact (hmac_ok _ _ _ _ _ I).
    + rewrite (proj2 (load_kem L p EBadAsn1Data _ _ _ _) S). cbn [bind]. cbv zeta. rewrite OI, (proj2 (kdf_exact L _ _ _ _ _ P) K). cbn [bind a_oid].
      assert (E : hmac_hash mac = None) by (clear - I; cbn [kmacs In] in I; enum I; reflexivity). rewrite E.
      destruct (proj2 (kmac_spec L (Alg mac PAbsent) data mk v)) as (K1 & K2); [exists h; auto|]. cbn [a_oid] in K1. rewrite K1. exact K2.
Qed.

(** ** Messages *)

Lemma first_kct_spec : forall l p, first_kct l = Some p <->
  exists before i after, l = (before ++ i :: after)%list /\ (forall j, In j before -> i_type j <> "id_it_KemCiphertextInfo") /\
    i_type i = "id_it_KemCiphertextInfo" /\ i_val i = p.
Proof.
  induction l as [|x l IH]; intro p; cbn [first_kct].
  - split; [discriminate|]. intros (b & i & a & E & _). destruct b; discriminate E.
  - unfold kct_type in *. destruct (String.eqb_spec (i_type x) "id_it_KemCiphertextInfo") as [E|N]; split.
    + intro H; inversion H; subst. exists [], x, l. repeat split; auto.
    + intros (b & i & a & E2 & B & T & V). destruct b as [|y b]; inversion E2; subst; [reflexivity|].
      exfalso. exact (B y (or_introl eq_refl) E).
    + intro H. apply IH in H as (b & i & a & -> & B & T & V). exists (x :: b)%list, i, a. repeat split; auto.
      intros j [<-|J]; auto.
    + intros (b & i & a & E2 & B & T & V). apply IH. destruct b as [|y b]; inversion E2; subst; [contradiction|].
      exists b, i, a. repeat split; auto. intros j J. apply B. now right.
Qed.
Lemma load_ct : forall L p ka ct, load (fun _ => None) (l_dec_ct L) (Some EValueError) p = Ok (ka, ct) <->
  exists b, (p = PRaw b \/ p = POctets b) /\ l_dec_ct L b = Some ((ka, ct), []).
Proof.
  intros. rewrite load_seen. split.
  - intros [H|(_ & H)]; [discriminate H|exact H].
  - intro H. right. auto.
Qed.
Definition kem_ss (L : lib) (m : msg) (o : vopts) : result bytes :=
  let! _ := guard (match v_ss o, v_key o with None, None => false | _, _ => true end) EValueError in
  let! _ := match v_key o with
            | Some k => guard (match k_kind k with KKem _ => true | _ => false end) EValueError
            | None => Ok tt
            end in
  match v_ss o, v_key o with
  | Some s, _ => Ok s
  | None, None => Err EValueError
  | None, Some k =>
      match first_kct (h_info (m_header m)) with
      | None => Err EValueError
      | Some p =>
          let! (ka, ct) := load (fun _ => None) (l_dec_ct L) (Some EValueError) p in
          let! ko := kem_oid k in
          let! _ := guard (String.eqb (a_oid ka) ko) EValueError in
          l_decaps L k ct
      end
  end.
Lemma kem_ss_spec : forall L m w ss, kem_ss L m w = Ok ss <-> kem_secret L m w ss.
Proof.
  intros L m w ss. unfold kem_ss. split.
  - intro H. apply bind_inv in H as ([] & G0 & H). apply bind_inv in H as ([] & G1 & H).
    destruct (v_ss w) as [s|] eqn:E1.
    + inversion H; subst s. apply KS_given; [exact E1|]. intros k EK. rewrite EK in G1. apply guard_err_false in G1.
      unfold is_kem_key. destruct (k_kind k); try discriminate G1. eauto.
    + destruct (v_key w) as [k|] eqn:E2; [|discriminate H]. apply guard_err_false in G1.
      destruct (first_kct (h_info (m_header m))) as [p|] eqn:F; [|discriminate H].
      apply bind_inv in H as ([ka ct] & LC & H). apply load_ct in LC as (b & PB & DC). apply first_kct_spec in F as (bf & i & af & HI & B & T & V).
      apply bind_inv in H as (ko & KO & H). apply bind_inv in H as ([] & G2 & H). apply guard_err_false in G2. apply String.eqb_eq in G2.
      unfold kem_oid in KO. destruct (k_kind k) as [| | | | | | | | | |oo] eqn:KK; try discriminate G1.
      apply (KS_decaps L m w k oo bf i af b ka ct ss); auto; congruence.
  - intros [s E KK|k o bf i af b ka ct s E EK KK HI B T V DC KO D].
    + rewrite E. cbn [guard bind]. destruct (v_key w) as [k|]; [|reflexivity]. destruct (KK k eq_refl) as (o & ->). reflexivity.
    + rewrite E, EK, KK. cbn [guard bind]. rewrite (proj2 (first_kct_spec _ (i_val i))) by (exists bf, i, af; auto).
      rewrite (proj2 (load_ct L (i_val i) ka ct)) by eauto. cbn [bind]. unfold kem_oid. rewrite KK. cbn [bind].
      rewrite KO, String.eqb_refl. exact D.
Qed.
Lemma verify_kem_eq : forall L rnd m w p v, h_alg (m_header m) = Some (Alg "id_KemBasedMac" p) -> m_prot m = Some v ->
  verify_pkimessage_protection L rnd m w =
  (let! ss := kem_ss L m w in let! data := protected_part L m in
   let! tx := may_get_tx_id (m_header m) in
   let! e := compute_kem_based_mac_from_alg_id L data (Alg "id_KemBasedMac" p) ss tx in guard (bytes_eqb e v) EBadMessageCheck).
Proof.
  intros L rnd m w p v HA HP. unfold verify_pkimessage_protection. rewrite HP, HA. cbn [bind a_oid].
  assert (E : (if v_lw w then let! _ := get_protection_type_from_pkimessage (m_header m) true true true in Ok tt else Ok tt) = Ok tt).
  { destruct (v_lw w); [|reflexivity]. unfold get_protection_type_from_pkimessage. rewrite HA. reflexivity. }
  rewrite E. cbn [bind]. change (String.eqb "id_KemBasedMac" "id_KemBasedMac") with true. cbv iota.
  unfold verify_kem, kem_ss. destruct (guard _ EValueError) as [[]|]; [|reflexivity]. cbn [bind].
  destruct (match v_key w with Some _ => _ | None => _ end) as [[]|]; reflexivity.
Qed.
Theorem kem_accepts : forall L rnd m w p v, prim_ok L -> h_alg (m_header m) = Some (Alg "id_KemBasedMac" p) -> m_prot m = Some v ->
  (verify_pkimessage_protection L rnd m w = Ok tt <->
   exists ss tx data, kem_secret L m w ss /\ h_tx (m_header m) = Some tx /\ part_of L m data /\
     kem_value L (Alg "id_KemBasedMac" p) ss tx data v).
Proof.
  intros L rnd m w p v P HA HP. rewrite (verify_kem_eq L rnd m w p v HA HP). split.
  - intro H. apply bind_inv in H as (ss & S & H). apply bind_inv in H as (data & D & H). apply bind_inv in H as (tx & T & H).
    apply bind_inv in H as (e & K & H). apply guard_err_false in H. apply bytes_eqb_eq in H. subst e.
    exists ss, tx, data. split; [now apply kem_ss_spec|]. split; [unfold may_get_tx_id in T; destruct (h_tx (m_header m)); congruence|].
    split; [now apply protected_part_ok|]. now apply (kem_exact L data (Alg "id_KemBasedMac" p) ss tx v P eq_refl).
  - intros (ss & tx & data & S & T & D & V). apply kem_ss_spec in S. apply protected_part_ok in D. rewrite S, D. cbn [bind].
    unfold may_get_tx_id. rewrite T. cbn [bind]. rewrite (proj2 (kem_exact L data (Alg "id_KemBasedMac" p) ss tx v P eq_refl) V). cbn [bind].
    now rewrite bytes_eqb_refl.
Qed.
Theorem kem_rejects : forall L rnd m w p v v' ss tx data, prim_ok L -> h_alg (m_header m) = Some (Alg "id_KemBasedMac" p) ->
  m_prot m = Some v -> kem_secret L m w ss -> h_tx (m_header m) = Some tx -> part_of L m data ->
  kem_value L (Alg "id_KemBasedMac" p) ss tx data v' -> v' <> v ->
  verify_pkimessage_protection L rnd m w = Err EBadMessageCheck.
Proof.
  intros L rnd m w p v v' ss tx data P HA HP S T D V N. rewrite (verify_kem_eq L rnd m w p v HA HP).
  apply kem_ss_spec in S. apply protected_part_ok in D. rewrite S, D. cbn [bind].
  unfold may_get_tx_id. rewrite T. cbn [bind]. rewrite (proj2 (kem_exact L data (Alg "id_KemBasedMac" p) ss tx v' P eq_refl) V). cbn [bind].
  now rewrite (proj2 (bytes_eqb_neq _ _) N).
Qed.

(** ** Round trip *)

(** The identifiers that are prepared. *)
Inductive prepared_kem : algid -> Prop :=
| PK_hkdf : forall o h ctx mac hm, In (o, h) hkdfs \/ In o ["id_alg.32"; "id_alg.33"; "id_alg.34"; "id_alg.35"] -> In (mac, hm) hmacs ->
    prepared_kem (Alg "id_KemBasedMac" (PKem (Alg o PAbsent) ctx 32 (Alg mac PAbsent)))
| PK_kdf : forall o so ctx mac hm, In o ["id_kdf_kdf2"; "id_kdf_kdf3"] -> In (mac, hm) hmacs ->
    prepared_kem (Alg "id_KemBasedMac" (PKem (Alg o (PAlg (Alg so PAbsent))) ctx 32 (Alg mac PAbsent))).
Lemma prepare_kem : forall rnd ctx kdf h a, startswith "pbkdf2" kdf = false ->
  prepare_kem_based_mac_alg_id rnd ctx kdf None 100000 32 h = Ok a -> prepared_kem a.
Proof.
  intros rnd ctx kdf h a NP H. unfold prepare_kem_based_mac_alg_id in H. apply bind_inv in H as (p & H & E). inversion E; subst a. clear E.
  unfold prepare_kem_based_mac_params in H.
  destruct (String.eqb_spec kdf "pbkdf2") as [->|_]; [discriminate NP|].
  apply bind_inv in H as (ka & HK & H). apply bind_inv in H as (mo & HM & H).
  unfold checked in H. cbn [constraints_ok] in H. change (1 <=? 32) with true in H. cbn [guard bind] in H. inversion H; subst p. clear H.
  assert (HMAC : exists hm, In (mo, hm) hmacs).
  { destruct (prep_hmac h (Alg mo PAbsent)) as (o & E & I); [unfold prepare_hmac_alg_id; now rewrite HM|]. inversion E; subst; eauto. }
  destruct HMAC as (hm & IM). unfold prepare_kdf_alg_id in HK.
  destruct (String.eqb_spec kdf "hkdf") as [->|_].
  - destruct (rlookup ("hkdf" ++ "-" ++ h) HKDF_OID_2_NAME) as [o|] eqn:E; [|discriminate HK]. inversion HK; subst ka.
    apply rlookup_In in E. apply (in_map fst) in E. cbn [fst] in E.
    assert (X : (exists h, In (o, h) hkdfs) \/ In o ["id_alg.32"; "id_alg.33"; "id_alg.34"; "id_alg.35"]).
    { clear - E. cbn in E. cbn. repeat (destruct E as [E|E]; [subst o; eauto 10|]). destruct E. }
    destruct X as [(hh & X)|X]; [apply (PK_hkdf o hh ctx mo hm)|apply (PK_hkdf o "" ctx mo hm)]; auto.
  - destruct (startswith "kdf" kdf).
    + apply bind_inv in HK as (so & HS & HK). inversion HK; subst ka. eapply PK_kdf; eauto.
      destruct (String.eqb kdf "kdf2"); cbn; tauto.
    + rewrite NP in HK. discriminate HK.
Qed.
(** The recipient computes the same value from the encoded parameters. *)
Lemma kem_wire : forall L data a ss tx, codec_ok L -> prepared_kem a ->
  compute_kem_based_mac_from_alg_id L data (wire_alg L a) ss tx = compute_kem_based_mac_from_alg_id L data a ss tx.
Proof.
  intros L data a ss tx CK H. destruct H as [o h ctx mac hm I IM|o so ctx mac hm I IM]; unfold compute_kem_based_mac_from_alg_id;
    unfold wire_alg; cbn [a_oid a_params wire load sel_kem].
  - rewrite (ck_kem _ CK) by reflexivity. reflexivity.
  - rewrite (ck_kem _ CK) by reflexivity. cbn [wire_alg bind a_oid a_params wire].
    assert (E : forall oi, compute_kdf_from_alg_id L (Alg o (PRaw (l_enc L (PAlg (Alg so PAbsent))))) ss 32 oi =
                compute_kdf_from_alg_id L (Alg o (PAlg (Alg so PAbsent))) ss 32 oi).
    { intro oi. unfold compute_kdf_from_alg_id. cbn [a_oid a_params].
      assert (LD : load sel_alg (l_dec_alg L) None (PRaw (l_enc L (PAlg (Alg so PAbsent)))) = load sel_alg (l_dec_alg L) None (PAlg (Alg so PAbsent))).
      { unfold load. cbn [sel_alg]. rewrite (ck_alg _ CK) by reflexivity. reflexivity. }
      rewrite LD. clear LD. cbn [In] in I. destruct I as [<-|[<-|[]]]; reflexivity. }
    rewrite E. reflexivity.
Qed.

Definition kem_protected (L : lib) (m' : msg) (a : algid) (ss : bytes) (bad : bool) : Prop :=
  exists p data tx v v2, a = Alg "id_KemBasedMac" p /\ prepared_kem a /\ h_alg (m_header m') = Some a /\ m_prot m' = Some v2 /\
    part_of L m' data /\ h_tx (m_header m') = Some tx /\ compute_kem_based_mac_from_alg_id L data a ss tx = Ok v /\
    (if bad then manipulate_first_byte v else Ok v) = Ok v2.
Lemma kem_protected_verify : forall L rnd m' a ss bad w, lib_ok L -> kem_protected L m' a ss bad ->
  (kem_secret L m' w ss -> verify_pkimessage_protection L rnd m' w = (if bad then Err EBadMessageCheck else Ok tt)) /\
  (kem_secret L (transport L m') w ss ->
   verify_pkimessage_protection L rnd (transport L m') w = (if bad then Err EBadMessageCheck else Ok tt)).
Proof.
  intros L rnd m' a ss bad w HL (p & data & tx & v & v2 & -> & PK & HA & MP & D & T & C & HB).
  pose proof (transport_part _ _ _ (lk_part _ HL) D) as DT. pose proof (kem_wire L data _ ss tx (lk_codec _ HL) PK) as CW.
  rewrite C in CW. pose proof (lk_prim _ HL) as P. unfold wire_alg in CW. cbn [a_oid a_params] in CW.
  assert (HAT : h_alg (m_header (transport L m')) = Some (Alg "id_KemBasedMac" (wire L p)))
    by (cbn [transport set_header m_header wire_header h_alg]; rewrite HA; reflexivity).
  assert (TT : h_tx (m_header (transport L m')) = Some tx) by exact T.
  apply (kem_exact L data (Alg "id_KemBasedMac" p) ss tx v P eq_refl) in C.
  apply (kem_exact L data (Alg "id_KemBasedMac" (wire L p)) ss tx v P eq_refl) in CW.
  destruct bad.
  - apply manip_neq in HB. split; intro S.
    + apply (kem_rejects L rnd m' w p v2 v ss tx data); auto.
    + apply (kem_rejects L rnd (transport L m') w (wire L p) v2 v ss tx data); auto.
  - inversion HB; subst v2. split; intro S.
    + apply (kem_accepts L rnd m' w p v); eauto 10.
    + apply (kem_accepts L rnd (transport L m') w (wire L p) v); eauto 10.
Qed.
Lemma wire_kct : forall L l, first_kct l = None -> first_kct (List.map (wire_info L) l) = None.
Proof.
  induction l as [|x l IH]; cbn [first_kct List.map]; intro H; [reflexivity|]. cbn [wire_info i_type].
  destruct (String.eqb (i_type x) kct_type); [discriminate H|auto].
Qed.
Lemma no_kct : forall l, first_kct l = None <-> forall j, In j l -> i_type j <> "id_it_KemCiphertextInfo".
Proof.
  induction l as [|x l IH]; cbn [first_kct]; split; intro H.
  - intros j [].
  - reflexivity.
  - destruct (String.eqb_spec (i_type x) kct_type) as [E|N]; [discriminate H|]. intros j [<-|J]; [exact N|]. now apply IH.
  - destruct (String.eqb_spec (i_type x) kct_type) as [E|N]; [exfalso; exact (H x (or_introl eq_refl) E)|].
    apply IH. intros j J. apply H. now right.
Qed.

(** What a successful protection did: the secret it used. *)
Lemma protect_kem_inv : forall L rnd seed m o m', startswith "pbkdf2" (ko_kdf o) = false -> protect_kem L rnd seed m o = Ok m' ->
  exists a ss, kem_protected L m' a ss (ko_bad o) /\
    ((exists s, ko_ss o = Some s /\ str_to_bytes s = Ok ss) \/
     (exists ct k, ko_ss o = None /\ ko_ct o = Some ct /\ ko_key o = Some k /\ is_kem_key k /\ l_decaps L k ct = Ok ss) \/
     (exists c k ko ct, ko_ss o = None /\ ko_ct o = None /\ ko_peer o = Some c /\ c_pub c = Ok k /\ k_kind k = KKem ko /\
        l_encaps L k seed = Ok (ss, ct) /\
        h_info (m_header m') = (h_info (m_header m) ++ [{| i_type := kct_type; i_val := PCt (Alg ko PAbsent) ct |}])%list)).
Proof.
  intros L rnd seed m o m' NP H. unfold protect_kem in H. apply bind_inv in H as ([] & _ & H).
  apply bind_inv in H as ([ss h] & HS & H). apply bind_inv in H as (a & HA & H). cbv zeta in H.
  apply bind_inv in H as (data & D & H). apply bind_inv in H as (tx & T & H). apply bind_inv in H as (v & V & H).
  apply bind_inv in H as (v2 & HB & H). inversion H; subst m'; clear H.
  pose proof (prepare_kem _ _ _ _ _ NP HA) as PK.
  exists a, ss. split.
  - assert (EA : exists p, a = Alg "id_KemBasedMac" p) by (destruct PK; eauto). destruct EA as (p & EA).
    exists p, data, tx, v, v2. split; [exact EA|]. split; [exact PK|]. split; [reflexivity|]. split; [reflexivity|].
    split; [apply protected_part_ok in D as (b & B & E); exists b; split; [exact B|exact E]|].
    split; [unfold may_get_tx_id in T; cbn [set_header m_header set_alg h_tx] in T; destruct (h_tx h) eqn:E; [|discriminate T]; inversion T; subst; exact E|].
    split; [exact V|exact HB].
  - destruct (ko_ss o) as [s|].
    { left. apply bind_inv in HS as (b & SB & HS). exists s. split; [reflexivity|]. inversion HS; subst. exact SB. }
    destruct (ko_ct o) as [ct|].
    { right; left. destruct (ko_key o) as [k|]; [|discriminate HS]. apply bind_inv in HS as ([] & G & HS). apply guard_err_false in G.
      apply bind_inv in HS as (s & DC & HS). inversion HS; subst. exists ct, k. repeat split; auto.
      unfold is_kem_key. destruct (k_kind k); try discriminate G; eauto. }
    right; right. destruct (ko_peer o) as [c|]; [|discriminate HS]. apply bind_inv in HS as (k & CP & HS).
    apply bind_inv in HS as ([] & G & HS). apply guard_err_false in G. apply bind_inv in HS as ([s ct] & EN & HS).
    apply bind_inv in HS as (ko & KO & HS). inversion HS; subst. unfold kem_oid in KO.
    destruct (k_kind k) as [| | | | | | | | | |oo] eqn:KK; try discriminate G. inversion KO; subst.
    exists c, k, ko, ct. repeat split; auto.
Qed.

(** The shared secret is known on both sides. *)
Theorem kem_roundtrip_given : forall L rnd rnd2 seed m o m' s ss w, lib_ok L -> startswith "pbkdf2" (ko_kdf o) = false ->
  protect_kem L rnd seed m o = Ok m' -> ko_ss o = Some s -> str_to_bytes s = Ok ss ->
  v_ss w = Some ss -> (forall k, v_key w = Some k -> is_kem_key k) ->
  verify_pkimessage_protection L rnd2 m' w = (if ko_bad o then Err EBadMessageCheck else Ok tt) /\
  verify_pkimessage_protection L rnd2 (transport L m') w = (if ko_bad o then Err EBadMessageCheck else Ok tt).
Proof.
  intros L rnd rnd2 seed m o m' s ss w HL NP H KS SB WS WK.
  destruct (protect_kem_inv _ _ _ _ _ _ NP H) as (a & ss' & KP & CASES).
  assert (ss' = ss).
  { destruct CASES as [(s' & E & B)|[(ct & k & E & _)|(c & k & ko & ct & E & _)]]; congruence. }
  subst ss'. destruct (kem_protected_verify L rnd2 m' a ss (ko_bad o) w HL KP) as (X & Y).
  split; [apply X|apply Y]; now apply KS_given.
Qed.
(** The sender decapsulated a ciphertext; the recipient knows the secret from encapsulating. *)
Theorem kem_roundtrip_decaps : forall L rnd rnd2 seed seed2 m o m' ct k ss w, lib_ok L -> startswith "pbkdf2" (ko_kdf o) = false ->
  protect_kem L rnd seed m o = Ok m' -> ko_ss o = None -> ko_ct o = Some ct -> ko_key o = Some k ->
  l_encaps L k seed2 = Ok (ss, ct) -> v_ss w = Some ss -> (forall k, v_key w = Some k -> is_kem_key k) ->
  verify_pkimessage_protection L rnd2 m' w = (if ko_bad o then Err EBadMessageCheck else Ok tt) /\
  verify_pkimessage_protection L rnd2 (transport L m') w = (if ko_bad o then Err EBadMessageCheck else Ok tt).
Proof.
  intros L rnd rnd2 seed seed2 m o m' ct k ss w HL NP H KS KC KK EN WS WK.
  destruct (protect_kem_inv _ _ _ _ _ _ NP H) as (a & ss' & KP & CASES).
  pose proof (pm_kem _ (lk_prim _ HL) _ _ _ _ EN) as DC.
  assert (ss' = ss).
  { destruct CASES as [(s' & E & B)|[(ct' & k' & E & E1 & E2 & _ & D)|(c & k' & ko & ct' & E & E1 & _)]]; congruence. }
  subst ss'. destruct (kem_protected_verify L rnd2 m' a ss (ko_bad o) w HL KP) as (X & Y).
  split; [apply X|apply Y]; now apply KS_given.
Qed.
(** The sender encapsulated for the recipient, who receives the ciphertext in the message. *)
Theorem kem_roundtrip_encaps : forall L rnd rnd2 seed m o m' c k w, lib_ok L -> startswith "pbkdf2" (ko_kdf o) = false ->
  protect_kem L rnd seed m o = Ok m' -> ko_ss o = None -> ko_ct o = None -> ko_peer o = Some c -> c_pub c = Ok k ->
  (forall j, In j (h_info (m_header m)) -> i_type j <> "id_it_KemCiphertextInfo") -> v_ss w = None -> v_key w = Some k ->
  verify_pkimessage_protection L rnd2 (transport L m') w = (if ko_bad o then Err EBadMessageCheck else Ok tt).
Proof.
  intros L rnd rnd2 seed m o m' c k w HL NP H KS KC KP CP NK WS WK.
  destruct (protect_kem_inv _ _ _ _ _ _ NP H) as (a & ss & KPR & CASES).
  destruct CASES as [(s' & E & B)|[(ct' & k' & E & E1 & _)|(c' & k' & ko & ct & _ & _ & E2 & E3 & KK & EN & HI)]]; try congruence.
  assert (c' = c) by congruence. subst c'. assert (k' = k) by congruence. subst k'.
  apply (kem_protected_verify L rnd2 m' a ss (ko_bad o) w HL KPR).
  apply (KS_decaps L _ w k ko (List.map (wire_info L) (h_info (m_header m)))
           (wire_info L {| i_type := kct_type; i_val := PCt (Alg ko PAbsent) ct |}) []
           (l_enc L (PCt (Alg ko PAbsent) ct)) (wire_alg L (Alg ko PAbsent)) ct ss); auto.
  - cbn [transport set_header m_header wire_header h_info]. rewrite HI, map_app. reflexivity.
  - apply no_kct. apply wire_kct. now apply no_kct.
  - rewrite (ck_ct _ (lk_codec _ HL)) by reflexivity. reflexivity.
  - exact (pm_kem _ (lk_prim _ HL) _ _ _ _ EN).
Qed.
