(** Proofs about messages protected by a MAC (properties C87, C88). *)
From Coq Require Import String Ascii Lia.
From Verif Require Import Prelude PreludeFacts PyStr PyStrProofs CompLoadModel HdrModel ProtTab ProtModel ProtSpec ProtMac.
Open Scope string_scope.
Open Scope Z_scope.
Local Notation length := List.length.

(** ** The lightweight profile *)

Lemma seen_pbmac1_fun : forall L p k m k' m',
  seen (l_dec_pbmac1 L) p (PPbmac1 k m) (k, m) -> seen (l_dec_pbmac1 L) p (PPbmac1 k' m') (k', m') -> k = k' /\ m = m'.
Proof.
  intros L p k m k' m' H H'. apply load_pbmac1 with (e := EBadAsn1Data) in H, H'. rewrite H in H'. now inversion H'.
Qed.
Lemma seen_pbkdf2_fun : forall L p s i n a s' i' n' a',
  seen (l_dec_pbkdf2 L) p (PPbkdf2 s i n a) (s, i, n, a) ->
  seen (l_dec_pbkdf2 L) p (PPbkdf2 s' i' n' a') (s', i', n', a') -> s = s' /\ i = i' /\ n = n' /\ a = a'.
Proof.
  intros L p s i n a s' i' n' a' H H'. apply load_pbkdf2 with (e := EBadAsn1Data) in H, H'. rewrite H in H'. now inversion H'.
Qed.
Lemma seen_pbm_fun : forall L p s o i m s' o' i' m',
  seen (l_dec_pbm L) p (PPbm s o i m) (s, o, i, m) ->
  seen (l_dec_pbm L) p (PPbm s' o' i' m') (s', o', i', m') -> s = s' /\ o = o' /\ i = i' /\ m = m'.
Proof.
  intros L p s o i m s' o' i' m' H H'. apply load_pbm with (e := EBadAsn1Data) in H, H'. rewrite H in H'. now inversion H'.
Qed.
Lemma prf_hashes_fun : forall o h h', In (o, h) prf_hashes -> In (o, h') prf_hashes -> h = h'.
Proof.
  intros o h h' H H'. apply prf_back in H as (n & A & B). apply prf_back in H' as (n' & A' & B'). congruence.
Qed.
Lemma owf_hashes_fun : forall o h h', In (o, h) owf_hashes -> In (o, h') owf_hashes -> h = h'.
Proof.
  intros o h h' H H'. apply owf_back in H as (n & A & B). apply owf_back in H' as (n' & A' & B'). congruence.
Qed.
Lemma lw_exact : forall L rnd a pw data v, has (a_oid a) LWCMP_MAC_OID_2_NAME = true ->
  (symmetric_mac L rnd a pw data true = Ok v <-> mac_value L (rnd 16) a pw data v /\ lw_mac L a).
Proof.
  intros L rnd a pw data v HL. destruct a as [o p]; cbn [a_oid] in HL.
  apply has_In in HL. cbn in HL. destruct HL as [<-|[<-|[]]].
  - change (symmetric_mac L rnd (Alg "id_PasswordBasedMac" p) pw data true) with (pbm_mac L rnd p pw data true).
    rewrite pbm_spec; split.
    + intros (salt & owf & iter & mac & ho & hm & S & I1 & I2 & LW & ->). destruct (LW eq_refl) as (B & S2).
      split; [exact (MV_pbm L _ p salt owf iter mac ho hm pw data S I1 I2)|].
      exact (LW_pbm L p salt owf iter mac hm S B I2 S2).
    + intros (M & W). inversion M; subst; try (match goal with H : In _ hmacs |- _ => now apply hmac_hash_spec in H end).
      * match goal with H : In _ kmacs |- _ => destruct H as [X|[X|[]]]; discriminate X end.
      * match goal with H : In _ gmacs |- _ => destruct H as [X|[X|[X|[]]]]; discriminate X end.
      * inversion W; subst.
        match goal with H1 : seen _ p (PPbm salt owf iter mac) _, H2 : seen _ p (PPbm salt0 owf0 iter0 mac0) _ |- _ =>
          destruct (seen_pbm_fun _ _ _ _ _ _ _ _ _ _ H1 H2) as (-> & -> & -> & ->) end.
        exists salt0, owf0, iter0, mac0, ho, hm. repeat split; auto.
        -- match goal with H1 : In (a_oid mac0, hm) _, H2 : In (a_oid mac0, h) _ |- _ =>
             rewrite (hmacs_fun _ _ _ H1 H2) end. assumption.
        -- match goal with H1 : In (a_oid mac0, hm) _, H2 : In (a_oid mac0, h) _ |- _ =>
             rewrite (hmacs_fun _ _ _ H1 H2) end. assumption.
  - change (symmetric_mac L rnd (Alg "id_PBMAC1" p) pw data true) with (compute_pbmac1_from_param L p pw data false true).
    rewrite pbmac1_spec; split.
    + intros (kp & mac & mp & salt & iter & n & prf & hp & hm & dk & S1 & S2 & I1 & I2 & D & LW & ->).
      destruct (LW eq_refl) as (-> & S3). split.
      * exact (MV_pbmac1 L _ p kp mac salt iter n prf hm hm pw data dk mp S1 S2 I1 I2 D).
      * exact (LW_pbmac1 L p (Alg "id_PBKDF2" kp) (Alg mac mp) _ _ _ prf hm S1 S2 I1 I2 S3).
    + intros (M & W). inversion M; subst; try (match goal with H : In _ hmacs |- _ => now apply hmac_hash_spec in H end).
      * match goal with H : In _ kmacs |- _ => destruct H as [X|[X|[]]]; discriminate X end.
      * match goal with H : In _ gmacs |- _ => destruct H as [X|[X|[X|[]]]]; discriminate X end.
      * inversion W; subst.
        match goal with H1 : seen _ p (PPbmac1 k mac0) _, H2 : seen _ p (PPbmac1 _ (Alg mac mp)) _ |- _ =>
          destruct (seen_pbmac1_fun _ _ _ _ _ _ H1 H2) as (-> & ->) end.
        cbn [a_oid a_params] in *.
        match goal with H1 : seen _ kp (PPbkdf2 salt0 _ _ _) _, H2 : seen _ kp (PPbkdf2 (SaltSpec salt) _ _ _) _ |- _ =>
          destruct (seen_pbkdf2_fun _ _ _ _ _ _ _ _ _ _ H1 H2) as (-> & -> & -> & ->) end.
        exists kp, mac, mp, salt, iter, n, prf, hp, hm, dk. repeat split; auto.
        -- match goal with H1 : In (mac, hm) _, H2 : In (mac, h) _ |- _ => rewrite (hmacs_fun _ _ _ H1 H2) end.
           match goal with H1 : In (a_oid prf, hp) _, H2 : In (a_oid prf, h) _ |- _ => exact (prf_hashes_fun _ _ _ H1 H2) end.
        -- match goal with H1 : In (mac, hm) _, H2 : In (mac, h) _ |- _ => rewrite (hmacs_fun _ _ _ H1 H2) end. assumption.
Qed.

(** ** Verification *)

Lemma protected_part_ok : forall L m data, protected_part L m = Ok data <-> part_of L m data.
Proof.
  intros L m data; unfold protected_part, part_of; split.
  - destruct (m_body m) as [b|]; [|discriminate]. destruct (l_part L (m_header m) b) eqn:E; [|discriminate].
    intro H; inversion H; subst. eauto.
  - intros (b & -> & ->). reflexivity.
Qed.
Definition chk_mac_oid (o : oid) : bool :=
  negb (String.eqb o "id_KemBasedMac") && negb (String.eqb o "id_DHBasedMac") && has o SYMMETRIC_PROT_ALGO
  && match get_protection_type o with Ok T_MAC => true | _ => false end.
Lemma mac_oid_facts : forall o, In o mac_oids ->
  String.eqb o "id_KemBasedMac" = false /\ String.eqb o "id_DHBasedMac" = false /\ has o SYMMETRIC_PROT_ALGO = true
  /\ get_protection_type o = Ok T_MAC.
Proof.
  intros o H. assert (A : forallb chk_mac_oid mac_oids = true) by (vm_compute; reflexivity).
  pose proof (proj1 (forallb_forall _ _) A _ H) as C. unfold chk_mac_oid in C.
  apply andb_prop in C as (C & C4). apply andb_prop in C as (C & C3). apply andb_prop in C as (C1 & C2).
  apply negb_true_iff in C1, C2. repeat split; auto.
  destruct (get_protection_type o) as [t|]; [|discriminate C4]. now destruct t.
Qed.
Lemma mac_oid_not_dh : forall o, In o mac_oids -> o <> "id_DHBasedMac".
Proof. intros o H E. destruct (mac_oid_facts o H) as (_ & D & _). apply String.eqb_neq in D. contradiction. Qed.

Lemma verify_mac_eq : forall L rnd m o a v pw, mac_message m a v -> with_password o pw ->
  verify_pkimessage_protection L rnd m o =
  (let! _ := (if v_lw o then guard (has (a_oid a) LWCMP_MAC_OID_2_NAME) EBadAlg else Ok tt) in
   let! e := compute_symmetric_protection L rnd m a pw (v_lw o) in guard (bytes_eqb v e) EBadMessageCheck).
Proof.
  intros L rnd m o a v pw (HA & HM & HP) (p & P1 & P2). unfold verify_pkimessage_protection.
  rewrite HP, HA. cbn [bind]. destruct (mac_oid_facts _ HM) as (F1 & F2 & F3 & F4). rewrite F1, F2, F3, P1.
  destruct (v_lw o) eqn:W.
  - unfold get_protection_type_from_pkimessage. rewrite HA, F4. cbn [bind].
    unfold enforce_lwcmp_protection_alg. rewrite F4. cbn [bind].
    destruct (has (a_oid a) LWCMP_MAC_OID_2_NAME); cbn [guard bind]; [|reflexivity]. now rewrite P2.
  - cbn [bind]. now rewrite P2.
Qed.
Lemma bytes_eqb_guard : forall v e x, guard (bytes_eqb v e) x = Ok tt <-> e = v.
Proof.
  intros v e x; destruct (bytes_eqb v e) eqn:E; cbn; split; intro H; try discriminate; try reflexivity.
  - apply bytes_eqb_eq in E. congruence.
  - subst. now rewrite bytes_eqb_refl in E.
Qed.

Theorem mac_decides : forall L rnd m o a v pw data,
  mac_message m a v -> with_password o pw -> part_of L m data -> v_lw o = false ->
  (verify_pkimessage_protection L rnd m o = Ok tt <-> mac_value L (rnd 16) a pw data v) /\
  (forall e, mac_value L (rnd 16) a pw data e -> e <> v ->
             verify_pkimessage_protection L rnd m o = Err EBadMessageCheck).
Proof.
  intros L rnd m o a v pw data HM HP HD W. rewrite (verify_mac_eq _ _ _ _ _ _ _ HM HP), W.
  cbn [bind]. unfold compute_symmetric_protection. apply protected_part_ok in HD. rewrite HD. cbn [bind].
  destruct HM as (_ & HI & _). pose proof (mac_oid_not_dh _ HI) as ND. split.
  - rewrite <- (symmetric_exact _ _ _ _ _ _ ND). split.
    + intro H. apply bind_inv in H as (e & E & G). apply bytes_eqb_guard in G. congruence.
    + intro H. rewrite H. cbn [bind]. now apply bytes_eqb_guard.
  - intros e H NE. apply (symmetric_exact _ _ _ _ _ _ ND) in H. rewrite H. cbn [bind].
    destruct (bytes_eqb v e) eqn:E; [|reflexivity]. apply bytes_eqb_eq in E. congruence.
Qed.
Theorem mac_decides_lw : forall L rnd m o a v pw data,
  mac_message m a v -> with_password o pw -> part_of L m data -> v_lw o = true ->
  (verify_pkimessage_protection L rnd m o = Ok tt <-> mac_value L (rnd 16) a pw data v /\ lw_mac L a).
Proof.
  intros L rnd m o a v pw data HM HP HD W. rewrite (verify_mac_eq _ _ _ _ _ _ _ HM HP), W.
  destruct HM as (_ & HI & _).
  unfold compute_symmetric_protection. apply protected_part_ok in HD. rewrite HD. cbn [bind].
  destruct (has (a_oid a) LWCMP_MAC_OID_2_NAME) eqn:E; cbn [guard bind].
  - rewrite <- (lw_exact _ _ _ _ _ _ E). split.
    + intro H. apply bind_inv in H as (e & S & G). apply bytes_eqb_guard in G. congruence.
    + intro H. rewrite H. cbn [bind]. now apply bytes_eqb_guard.
  - split; [discriminate|]. intros (_ & W2). destruct W2; discriminate E.
Qed.
(** No exception other than the refusal hides an acceptance: without a password or a body nothing is accepted. *)
Theorem mac_needs : forall L rnd m o, verify_pkimessage_protection L rnd m o = Ok tt ->
  exists a v, h_alg (m_header m) = Some a /\ m_prot m = Some v /\
    (In (a_oid a) mac_oids -> exists pw data, with_password o pw /\ part_of L m data).
Proof.
  intros L rnd m o H. unfold verify_pkimessage_protection in H.
  apply bind_inv in H as (v & HV & H). destruct (m_prot m) as [v'|] eqn:EP; [|discriminate]. inversion HV; subst v'.
  apply bind_inv in H as (u & _ & H). destruct (h_alg (m_header m)) as [a|] eqn:EA; [|discriminate].
  exists a, v. repeat split; auto. intro HI. destruct (mac_oid_facts _ HI) as (F1 & F2 & F3 & _).
  rewrite F1, F2, F3 in H. destruct (v_password o) as [p|] eqn:P; [|discriminate].
  apply bind_inv in H as (pw & P2 & H). apply bind_inv in H as (e & S & _).
  unfold compute_symmetric_protection in S. apply bind_inv in S as (data & D & _).
  exists pw, data. split; [exists p; auto|]. now apply protected_part_ok.
Qed.
(** An altered message that is accepted gives two inputs with the same code. *)
Theorem mac_tamper : forall L rnd m1 m2 o a1 a2 v pw, lib_ok L -> v_lw o = false ->
  mac_message m1 a1 v -> mac_message m2 a2 v -> with_password o pw ->
  wf_header L (m_header m1) = true -> wf_header L (m_header m2) = true ->
  verify_pkimessage_protection L rnd m1 o = Ok tt -> verify_pkimessage_protection L rnd m2 o = Ok tt ->
  (wire_header L (m_header m1) = wire_header L (m_header m2) /\ m_body m1 = m_body m2) \/
  (exists d1 d2, d1 <> d2 /\ part_of L m1 d1 /\ part_of L m2 d2 /\
     mac_value L (rnd 16) a1 pw d1 v /\ mac_value L (rnd 16) a2 pw d2 v).
Proof.
  intros L rnd m1 m2 o a1 a2 v pw HL W M1 M2 HP F1 F2 V1 V2.
  destruct (mac_needs _ _ _ _ V1) as (b1 & w1 & A1 & _ & N1). destruct (mac_needs _ _ _ _ V2) as (b2 & w2 & A2 & _ & N2).
  assert (b1 = a1) by (destruct M1 as (X & _); congruence). assert (b2 = a2) by (destruct M2 as (X & _); congruence). subst.
  destruct (N1 (proj1 (proj2 M1))) as (_ & d1 & _ & D1). destruct (N2 (proj1 (proj2 M2))) as (_ & d2 & _ & D2).
  pose proof (proj1 (proj1 (mac_decides _ rnd _ _ _ _ _ _ M1 HP D1 W)) V1) as X1.
  pose proof (proj1 (proj1 (mac_decides _ rnd _ _ _ _ _ _ M2 HP D2 W)) V2) as X2.
  destruct (bytes_eqb d1 d2) eqn:E.
  - apply bytes_eqb_eq in E. subst d2. left. destruct D1 as (c1 & B1 & P1), D2 as (c2 & B2 & P2).
    destruct (pt_inj _ (lk_part _ HL) _ _ _ _ _ F1 F2 P1 P2) as (Q & ->). split; congruence.
  - right. exists d1, d2. repeat split; auto. intros ->. now rewrite bytes_eqb_refl in E.
Qed.

(** ** Protecting *)

Lemma rlookup_In : forall n t o, rlookup n t = Some o -> In (o, n) t.
Proof.
  induction t as [|[x w] t IH]; cbn; intros o H; [discriminate|].
  destruct (String.eqb_spec n w) as [->|]; [inversion H; subst; now left|right; auto].
Qed.
Lemma strip_hmac : forall h, strip is_space (lower ("hmac-" ++ h)) = "hmac-" ++ rstrip is_space (lower h).
Proof.
  intro h. unfold strip. change (lower ("hmac-" ++ h)) with ("hmac-" ++ lower h).
  change (lstrip is_space ("hmac-" ++ lower h)) with ("hmac-" ++ lower h).
  rewrite rstrip_app. destruct (rstrip is_space (lower h)); reflexivity.
Qed.
Definition chk_hm (p : oid * string) : bool :=
  if startswith "hmac-" (snd p)
  then match hmac_hash (fst p) with Some (Ok h) => String.eqb ("hmac-" ++ h) (snd p) | _ => false end
  else true.
Lemma prefix_app : forall a b, String.prefix a (a ++ b) = true.
Proof.
  induction a as [|c a IH]; intro b; [now destruct b|]. cbn. destruct (Ascii.ascii_dec c c); [apply IH|congruence].
Qed.
Lemma app_inj : forall a b c, a ++ b = a ++ c -> b = c.
Proof. induction a as [|x a IH]; cbn; intros b c H; [exact H|]. inversion H. auto. Qed.
(** The hash named by the caller. *)
Lemma prep_hmac : forall h a, prepare_hmac_alg_id h = Ok a ->
  exists o, a = Alg o PAbsent /\ In (o, rstrip is_space (lower h)) hmacs.
Proof.
  intros h a H. unfold prepare_hmac_alg_id, sha_alg_name_to_oid in H. rewrite strip_hmac in H.
  set (x := rstrip is_space (lower h)) in *.
  destruct (rlookup ("hmac-" ++ x) OID_HASH_MAP) as [o|] eqn:E; [|discriminate]. inversion H; subst a.
  exists o. split; auto. apply rlookup_In in E.
  assert (A : forallb chk_hm OID_HASH_MAP = true) by (vm_compute; reflexivity).
  pose proof (proj1 (forallb_forall _ _) A _ E) as C. unfold chk_hm in C. cbn [fst snd] in C.
  unfold startswith in C. rewrite prefix_app in C.
  destruct (hmac_hash o) as [[h'|]|] eqn:Q; try discriminate C. apply String.eqb_eq in C. apply app_inj in C. subst h'.
  now apply hmac_hash_spec.
Qed.
Lemma hmacs_head : forall o h, In (o, h) hmacs -> lstrip is_space h = h /\ rstrip is_space h = h.
Proof. intros o h H. cbv [hmacs In] in H. enum H; split; reflexivity. Qed.
Lemma rstrip_lstrip : forall p s, rstrip p (lstrip p s) = lstrip p (rstrip p s).
Proof.
  intros p s; induction s as [|c s IH]; [reflexivity|]. cbn [lstrip rstrip].
  destruct (p c) eqn:E.
  - rewrite IH. destruct (rstrip p s); [cbn; reflexivity|]. cbn [lstrip]. now rewrite E.
  - cbn [rstrip]. rewrite E. destruct (rstrip p s); cbn [lstrip]; now rewrite E.
Qed.
Definition chk_bare_name (p : oid * string) : bool :=
  match rlookup (snd p) OID_HASH_MAP with Some o => match lookup o bare_hashes with Some h => String.eqb h (snd p) | None => false end | None => false end.
Lemma prep_sha : forall h a om, prepare_sha_alg_id h = Ok a -> In (om, rstrip is_space (lower h)) hmacs ->
  exists o, a = Alg o (PRaw [5; 0]) /\ In (o, rstrip is_space (lower h)) bare_hashes.
Proof.
  intros h a om H I. unfold prepare_sha_alg_id, sha_alg_name_to_oid, strip in H. rewrite rstrip_lstrip in H.
  destruct (hmacs_head _ _ I) as (S1 & S2). rewrite S1 in H.
  set (x := rstrip is_space (lower h)) in *.
  destruct (rlookup x OID_HASH_MAP) as [o|] eqn:E; [|discriminate]. inversion H; subst a. exists o. split; auto.
  assert (A : forallb chk_bare_name hmacs = true) by (vm_compute; reflexivity).
  pose proof (proj1 (forallb_forall _ _) A _ I) as C. unfold chk_bare_name in C. cbn [fst snd] in C. rewrite E in C.
  destruct (lookup o bare_hashes) as [y|] eqn:Q; [|discriminate C]. apply String.eqb_eq in C; subst y. now apply lookup_In.
Qed.
Lemma bare_owf : forall o h, In (o, h) bare_hashes -> In (o, h) owf_hashes.
Proof.
  intros o h H. unfold bare_hashes in H. unfold owf_hashes.
  repeat (apply in_app_or in H as [H|H]); rewrite !in_app_iff; tauto.
Qed.
Lemma hmac_prf : forall o h, In (o, h) hmacs -> In (o, h) prf_hashes.
Proof. intros. unfold prf_hashes. apply in_or_app. now left. Qed.

(** The algorithm identifiers that are prepared, with the hash. *)
Inductive prepared : protalg -> string -> algid -> Prop :=
| PR_hmac : forall o h, In (o, h) hmacs -> prepared PA_HMAC h (Alg o PAbsent)
| PR_kmac : forall o h, In (o, h) kmacs -> prepared PA_KMAC h (Alg o PAbsent)
| PR_gmac : forall o h n, In o gmacs -> prepared PA_GMAC h (Alg o (PGcm n))
| PR_pbmac1 : forall o h s i n, In (o, h) hmacs -> 1 <= i -> 1 <= n ->
    prepared PA_PBMAC1 h
      (Alg "id_PBMAC1" (PPbmac1 (Alg "id_PBKDF2" (PPbkdf2 (SaltSpec s) i (Some n) (Alg o PAbsent))) (Alg o PAbsent)))
| PR_pbm : forall ow o h s i, In (ow, h) bare_hashes -> In (o, h) hmacs -> 0 < Z.of_nat (length s) <= 128 ->
    prepared PA_PBM h (Alg "id_PasswordBasedMac" (PPbm s (Alg ow (PRaw [5; 0])) i (Alg o PAbsent))).
Lemma checked_ok : forall p q, checked p = Ok q -> q = p /\ constraints_ok p = true.
Proof. intros p q H. unfold checked in H. apply bind_inv in H as ([] & G & H). apply guard_true in G. inversion H; subst; split; auto. Qed.
Lemma or_bytes_pos : forall s rnd, is_urandom rnd -> 0 < Z.of_nat (length (or_bytes s (rnd 16))).
Proof. intros [|x s] rnd R; cbn [or_bytes]; [rewrite R; lia|cbn; lia]. Qed.
Lemma gmac_names : forall n o, lookup n AES_GMAC_NAME_2_OID = Some o -> In o gmacs.
Proof. intros n o H. apply lookup_In in H. cbv [AES_GMAC_NAME_2_OID In] in H. enum H; cbn; tauto. Qed.
Lemma prepare_mac : forall rnd prot o a pa, is_urandom rnd -> prepare_prot_alg_id rnd prot o = Ok a ->
  protection_get prot = Ok pa -> is_mac_protection pa = true -> prepared pa (hash_of pa o) a.
Proof.
  intros rnd prot o a pa R H G M. unfold prepare_prot_alg_id in H. rewrite G in H. cbn [bind] in H.
  unfold hash_of. destruct pa; try discriminate M.
  - destruct (prep_hmac _ _ H) as (x & -> & I). now constructor.
  - apply bind_inv in H as (s & _ & H). apply bind_inv in H as (p & P & H). inversion H; subst a; clear H.
    unfold prepare_pbmac1_parameters in P. apply bind_inv in P as (kdf & K & P). apply bind_inv in P as (mac & MM & P).
    inversion P; subst p; clear P. unfold prepare_pbkdf2_alg_id in K. apply bind_inv in K as (prf & PP & K).
    apply bind_inv in K as (q & Q & K). inversion K; subst kdf; clear K. apply checked_ok in Q as (-> & C).
    assert (prf = mac) by congruence. subst prf. destruct (prep_hmac _ _ MM) as (x & -> & I).
    cbn in C. apply andb_prop in C as (C1 & C2). apply Z.leb_le in C1, C2. now constructor.
  - apply bind_inv in H as (s & _ & H). apply bind_inv in H as (p & P & H). inversion H; subst a; clear H.
    unfold prepare_password_based_mac_parameters in P. apply bind_inv in P as (owf & W & P).
    apply bind_inv in P as (mac & MM & P). apply checked_ok in P as (-> & C).
    destruct (prep_hmac _ _ MM) as (x & -> & I). destruct (prep_sha _ _ _ W I) as (ow & -> & B).
    cbn in C. apply Z.leb_le in C. constructor; auto. split; [now apply or_bytes_pos|exact C].
  - apply bind_inv in H as (s & _ & H). unfold prepare_aes_gmac_prot_alg_id in H.
    destruct (lookup prot AES_GMAC_NAME_2_OID) as [x|] eqn:E; [|discriminate]. inversion H; subst a.
    constructor. now apply gmac_names in E.
  - unfold prepare_kmac_alg_id in H.
    destruct (String.eqb_spec (dflt (o_hash o) "shake128") "shake128") as [->|].
    { inversion H; subst a. constructor. vm_compute; tauto. }
    destruct (String.eqb_spec (dflt (o_hash o) "shake128") "shake256") as [->|]; [|discriminate].
    inversion H; subst a. constructor. vm_compute; tauto.
Qed.
Lemma prepared_oid : forall pa h a, prepared pa h a -> In (a_oid a) mac_oids.
Proof.
  intros pa h a H; destruct H; cbn [a_oid]; unfold mac_oids; rewrite !in_app_iff.
  - left. now apply (in_map fst) in H.
  - right; left. now apply (in_map fst) in H.
  - right; right; left; auto.
  - right; right; right; cbn; auto.
  - right; right; right; cbn; auto.
Qed.

(** The code survives the encoding of the message. *)
Lemma mac_wire : forall L pa h a fresh fresh' pw data v, codec_ok L -> prepared pa h a ->
  mac_value L fresh a pw data v -> mac_value L fresh' (wire_alg L a) pw data v.
Proof.
  intros L pa h a fresh fresh' pw data v C P M.
  assert (ND : a_oid a <> "id_DHBasedMac") by (apply mac_oid_not_dh; eapply prepared_oid; eauto).
  destruct P; unfold wire_alg; cbn [a_oid a_params wire].
  - inversion M; subst; try (apply MV_hmac; assumption);
      try (exfalso; match goal with X : In (_, _) kmacs |- _ => destruct X as [X|[X|[]]]; inversion X; subst;
             match goal with Y : In (_, _) hmacs |- _ => now apply hmac_hash_spec in Y end end).
    + exfalso. match goal with X : In _ gmacs |- _ => destruct X as [X|[X|[X|[]]]]; subst;
         match goal with Y : In (_, _) hmacs |- _ => now apply hmac_hash_spec in Y end end.
    + now apply hmac_hash_spec in H.
    + now apply hmac_hash_spec in H.
  - inversion M; subst; try (match goal with Y : In (_, _) hmacs |- _ => apply hmac_hash_spec in Y end;
       destruct H as [H|[H|[]]]; inversion H; subst; discriminate).
    + eapply MV_kmac; eauto.
    + destruct H as [H|[H|[]]]; inversion H; subst;
        match goal with X : In _ gmacs |- _ => destruct X as [X|[X|[X|[]]]]; discriminate X end.
  - inversion M; subst; try (match goal with Y : In (_, _) hmacs |- _ => apply hmac_hash_spec in Y end;
       destruct H as [H|[H|[H|[]]]]; subst; discriminate).
    + match goal with S : seen _ _ _ _ |- _ => destruct S as [S|(b & [S|S] & _)]; inversion S; subst end.
      eapply MV_gmac; eauto. right. exists (l_enc L (PGcm n0)). split; [now left|]. apply (ck_gcm _ C).
  - inversion M; subst; try (match goal with Y : In (_, _) hmacs |- _ => now apply hmac_hash_spec in Y end).
    + match goal with X : In _ gmacs |- _ => destruct X as [X|[X|[X|[]]]]; discriminate X end.
    + match goal with S : seen (l_dec_pbmac1 L) _ _ _ |- _ => destruct S as [S|(b & [S|S] & _)]; inversion S; subst; clear S end.
      match goal with S : seen (l_dec_pbkdf2 L) _ _ _ |- _ => destruct S as [S|(b & [S|S] & _)]; inversion S; subst; clear S end.
      refine (MV_pbmac1 L fresh' _ _ mac salt iter n0 (Alg mac PAbsent) hp hm pw data dk PAbsent _ _ _ _ _); try assumption.
      * right. eexists; split; [left; reflexivity|]. rewrite (ck_pbmac1 _ C).
        -- unfold wire_alg. cbn [a_oid a_params wire]. reflexivity.
        -- cbn. rewrite !andb_true_r. apply andb_true_intro; split; now apply Z.leb_le.
      * right. eexists; split; [left; reflexivity|]. rewrite (ck_pbkdf2 _ C).
        -- reflexivity.
        -- cbn. apply andb_true_intro; split; now apply Z.leb_le.
  - inversion M; subst; try (match goal with Y : In (_, _) hmacs |- _ => now apply hmac_hash_spec in Y end).
    + match goal with X : In _ gmacs |- _ => destruct X as [X|[X|[X|[]]]]; discriminate X end.
    + match goal with S : seen _ _ _ _ |- _ => destruct S as [S|(b & [S|S] & _)]; inversion S; subst; clear S end.
      assert (Z : Z.of_nat (length salt) =? 0 = false) by (apply Z.eqb_neq; lia). rewrite Z.
      pose proof (MV_pbm L fresh' (PRaw (l_enc L (PPbm salt (Alg ow (PRaw [5; 0])) iter (Alg o PAbsent)))) salt
                    (Alg ow (PRaw [5; 0])) iter (Alg o PAbsent) ho hm pw data) as X.
      rewrite Z in X. apply X; auto.
      right. eexists; split; [left; reflexivity|]. rewrite (ck_pbm _ C).
      * reflexivity.
      * cbn [wf_params wf_alg]. rewrite (proj2 (ck_null _ C)), !andb_true_r. apply Z.leb_le. lia.
Qed.
Lemma mac_fresh : forall L pa h a fresh fresh' pw data v, prepared pa h a ->
  mac_value L fresh a pw data v -> mac_value L fresh' a pw data v.
Proof.
  intros L pa h a fresh fresh' pw data v P M. inversion M; subst.
  - now apply MV_hmac.
  - eapply MV_kmac; eauto.
  - eapply MV_gmac; eauto.
  - eapply MV_pbmac1; eauto.
  - inversion P; subst; try (match goal with Y : In ("id_PasswordBasedMac", _) hmacs |- _ => now apply hmac_hash_spec in Y end).
    + match goal with X : In _ kmacs |- _ => destruct X as [X|[X|[]]]; discriminate X end.
    + match goal with X : In _ gmacs |- _ => destruct X as [X|[X|[X|[]]]]; discriminate X end.
    + match goal with S : seen _ _ _ _ |- _ => destruct S as [S|(b & [S|S] & _)]; inversion S; subst; clear S end.
      assert (Z : Z.of_nat (length salt) =? 0 = false) by (apply Z.eqb_neq; lia). rewrite Z.
      pose proof (MV_pbm L fresh' (PPbm salt (Alg ow (PRaw [5; 0])) iter (Alg o PAbsent)) salt
                    (Alg ow (PRaw [5; 0])) iter (Alg o PAbsent) ho hm pw data) as X.
      rewrite Z in X. apply X; auto. now left.
Qed.

Lemma add_cert_same : forall L rnd m k c m', add_cert_used_by_protection L rnd m k c = Ok m' ->
  m_header m' = m_header m /\ m_body m' = m_body m.
Proof.
  intros L rnd m k c m' H. unfold add_cert_used_by_protection in H.
  destruct c as [x|], (m_certs m) as [|f l].
  - inversion H; subst; auto.
  - destruct (bytes_eqb (c_der f) (c_der x)); [|discriminate]. inversion H; subst; auto.
  - apply bind_inv in H as (x & _ & H). inversion H; subst; auto.
  - apply bind_inv in H as (s & _ & H). apply bind_inv in H as (pk & _ & H).
    destruct (verify_signature L pk s test_data (Some "sha256")) as [u|e]; [inversion H; subst; auto|destruct e; discriminate].
Qed.
(** What protect_pkimessage did, when it succeeds. *)
Lemma protect_inv : forall L r1 r2 m prot o m', protect_pkimessage L r1 r2 m prot o = Ok m' ->
  exists h a v v2 c,
    prepare_prot_alg_id r1 prot o = Ok a /\
    compute_pkimessage_protection L r2 (set_header m (set_alg h a)) a o = Ok v /\
    (if o_bad o then manipulate_first_byte v else Ok v) = Ok v2 /\
    h = (if str_mem prot ["signature"; "rsassa-pss"; "rsassa_pss"; "dh"]
         then patch_sender_and_sender_kid (o_patch o) (m_header m) c else m_header m) /\
    m_header m' = set_alg h a /\ m_body m' = m_body m /\ m_prot m' = Some v2.
Proof.
  intros L r1 r2 m prot o m' H. unfold protect_pkimessage in H.
  apply bind_inv in H as (u1 & _ & H). apply bind_inv in H as (u2 & _ & H). apply bind_inv in H as (u3 & _ & H).
  apply bind_inv in H as (c & _ & H). cbv zeta in H.
  set (h := if str_mem prot _ then _ else _) in H.
  apply bind_inv in H as (a & HA & H). apply bind_inv in H as (v & HV & H). apply bind_inv in H as (ch & _ & H).
  apply bind_inv in H as (m2 & H2 & H). apply bind_inv in H as (v2 & HB & H). inversion H; subst m'; clear H.
  exists h, a, v, v2, c. repeat split; auto.
  - destruct (match c with Some _ => false | None => _ end); [inversion H2; subst; reflexivity|].
    destruct ch as [l|], (o_exclude o), (o_key o) as [k|]; try (inversion H2; subst; reflexivity).
    exact (proj1 (add_cert_same _ _ _ _ _ _ H2)).
  - destruct (match c with Some _ => false | None => _ end); [inversion H2; subst; reflexivity|].
    destruct ch as [l|], (o_exclude o), (o_key o) as [k|]; try (inversion H2; subst; reflexivity).
    exact (proj2 (add_cert_same _ _ _ _ _ _ H2)).
Qed.
Lemma manip_neq : forall v v2, manipulate_first_byte v = Ok v2 -> v2 <> v.
Proof.
  intros [|x r] v2 H; [discriminate|]. cbn in H. destruct (x =? 0) eqn:E; inversion H; subst; intro Q; inversion Q; subst; discriminate.
Qed.
Lemma wire_set_alg : forall L h a, h_alg (wire_header L (set_alg h a)) = Some (wire_alg L a).
Proof. reflexivity. Qed.
Lemma transport_part : forall L m data, part_ok L -> part_of L m data -> part_of L (transport L m) data.
Proof. intros L m data P (b & B & D). exists b. split; auto. cbn [transport set_header m_header]. now rewrite (pt_wire _ P). Qed.

(** What the recipient of the protected message computes. *)
Lemma protect_mac_value : forall L r1 r2 m prot o m' pa, is_urandom r1 ->
  protect_pkimessage L r1 r2 m prot o = Ok m' -> protection_get prot = Ok pa -> is_mac_protection pa = true ->
  exists a v v2 pw p data, prepared pa (hash_of pa o) a /\ mac_message m' a v2 /\
    (if o_bad o then manipulate_first_byte v else Ok v) = Ok v2 /\
    o_password o = Some p /\ str_to_bytes p = Ok pw /\ part_of L m' data /\ mac_value L (r2 16) a pw data v.
Proof.
  intros L r1 r2 m prot o m' pa R H G M. destruct (protect_inv _ _ _ _ _ _ _ H) as (h & a & v & v2 & c & HA & HV & HB & _ & EH & EB & EP).
  pose proof (prepare_mac _ _ _ _ _ R HA G M) as P. pose proof (prepared_oid _ _ _ P) as I.
  destruct (mac_oid_facts _ I) as (F1 & F2 & F3 & _).
  unfold compute_pkimessage_protection in HV. apply bind_inv in HV as (u & _ & HV). rewrite F2, F3 in HV.
  destruct (o_password o) as [p|] eqn:EPW; [|discriminate]. apply bind_inv in HV as (pw & S & HV).
  unfold compute_symmetric_protection in HV. apply bind_inv in HV as (data & D & HV).
  exists a, v, v2, pw, p, data. repeat split; auto.
  - now rewrite EH.
  - apply protected_part_ok in D as (b & B & D). exists b. split; [now rewrite EB|now rewrite EH].
  - apply symmetric_exact; auto. now apply mac_oid_not_dh.
Qed.
Theorem mac_roundtrip : forall L r1 r2 r3 m prot o m' pa w, lib_ok L -> is_urandom r1 ->
  protect_pkimessage L r1 r2 m prot o = Ok m' -> protection_get prot = Ok pa -> is_mac_protection pa = true ->
  v_password w = o_password o -> v_lw w = false ->
  verify_pkimessage_protection L r3 m' w = (if o_bad o then Err EBadMessageCheck else Ok tt) /\
  verify_pkimessage_protection L r3 (transport L m') w = (if o_bad o then Err EBadMessageCheck else Ok tt).
Proof.
  intros L r1 r2 r3 m prot o m' pa w HL R H G M SP LW.
  destruct (protect_mac_value _ _ _ _ _ _ _ _ R H G M) as (a & v & v2 & pw & p & data & P & MM & HB & EP & S & D & V).
  assert (WP : with_password w pw) by (exists p; split; [congruence|auto]).
  assert (MT : mac_message (transport L m') (wire_alg L a) v2).
  { destruct MM as (A & I & Q). repeat split; auto. cbn [transport set_header m_header wire_header h_alg]. now rewrite A. }
  pose proof (transport_part _ _ _ (lk_part _ HL) D) as DT.
  destruct (mac_decides L r3 m' w a v2 pw data MM WP D LW) as (X1 & X2).
  destruct (mac_decides L r3 (transport L m') w (wire_alg L a) v2 pw data MT WP DT LW) as (Y1 & Y2).
  pose proof (mac_fresh L _ _ _ _ (r3 16) _ _ _ P V) as V1.
  pose proof (mac_wire L _ _ _ _ (r3 16) _ _ _ (lk_codec _ HL) P V) as V2.
  destruct (o_bad o).
  - apply manip_neq in HB. split; [apply (X2 v)|apply (Y2 v)]; auto.
  - inversion HB; subst v2. split; [now apply X1|now apply Y1].
Qed.
Lemma verify_mac_value : forall L rnd m o a v pw data e,
  mac_message m a v -> with_password o pw -> part_of L m data -> v_lw o = true -> lw_mac L a ->
  mac_value L (rnd 16) a pw data e -> verify_pkimessage_protection L rnd m o = guard (bytes_eqb v e) EBadMessageCheck.
Proof.
  intros L rnd m o a v pw data e HM HP HD W LW V. rewrite (verify_mac_eq _ _ _ _ _ _ _ HM HP), W.
  assert (E : has (a_oid a) LWCMP_MAC_OID_2_NAME = true) by (destruct LW; reflexivity). rewrite E. cbn [guard bind].
  unfold compute_symmetric_protection. apply protected_part_ok in HD. rewrite HD. cbn [bind].
  now rewrite (proj2 (lw_exact L rnd a pw data e E) (conj V LW)).
Qed.
Definition lw_protection (p : protalg) : bool := match p with PA_PBMAC1 | PA_PBM => true | _ => false end.
Lemma seen_wire_pbmac1 : forall L k m, codec_ok L -> wf_params L (PPbmac1 k m) = true ->
  seen (l_dec_pbmac1 L) (wire L (PPbmac1 k m)) (PPbmac1 (wire_alg L k) (wire_alg L m)) (wire_alg L k, wire_alg L m).
Proof. intros L k m C W. right. eexists; split; [left; reflexivity|]. now apply (ck_pbmac1 _ C). Qed.
Lemma str_mem_false : forall s l, str_mem s l = false -> ~ In s l.
Proof. intros s l H I. apply str_mem_In in I. congruence. Qed.
Lemma lw_prepared_local : forall L pa h a, prepared pa h a -> lw_protection pa && str_mem h sha2_names = true -> lw_mac L a.
Proof.
  intros L pa h a P X. apply andb_prop in X as (X1 & X2). apply str_mem_In in X2. destruct P; try discriminate X1.
  - eapply LW_pbmac1 with (h := h); [left; reflexivity|left; reflexivity|now apply hmac_prf|assumption|assumption].
  - eapply LW_pbm with (h := h); [left; reflexivity|assumption|assumption|assumption].
Qed.
Lemma lw_prepared_wire : forall L pa h a, codec_ok L -> prepared pa h a ->
  lw_protection pa && str_mem h sha2_names = true -> lw_mac L (wire_alg L a).
Proof.
  intros L pa h a C P X. apply andb_prop in X as (X1 & X2). apply str_mem_In in X2. destruct P; try discriminate X1; unfold wire_alg; cbn [a_oid a_params wire].
  - assert (W : wf_params L (PPbkdf2 (SaltSpec s) i (Some n) (Alg o PAbsent)) = true).
    { cbn. apply andb_true_intro; split; now apply Z.leb_le. }
    eapply LW_pbmac1 with (h := h) (prf := Alg o PAbsent) (mac := Alg o PAbsent) (k := Alg "id_PBKDF2" (wire L (PPbkdf2 (SaltSpec s) i (Some n) (Alg o PAbsent)))).
    + right. eexists; split; [left; reflexivity|]. rewrite (ck_pbmac1 _ C); [reflexivity|].
      cbn [wf_params wf_alg]. cbn [wf_params wf_alg] in W. now rewrite W.
    + right. eexists; split; [left; reflexivity|]. rewrite (ck_pbkdf2 _ C _ _ _ _ W). reflexivity.
    + now apply hmac_prf.
    + assumption.
    + assumption.
  - eapply LW_pbm with (h := h) (owf := Alg ow (PRaw [5; 0])) (mac := Alg o PAbsent); [|eassumption|assumption|assumption].
    right. eexists; split; [left; reflexivity|]. rewrite (ck_pbm _ C); [reflexivity|].
    cbn [wf_params wf_alg]. rewrite (proj2 (ck_null _ C)), !andb_true_r. apply Z.leb_le. lia.
Qed.

Lemma lw_prepared_inv : forall L pa h a, prepared pa h a -> lw_mac L a \/ (codec_ok L /\ lw_mac L (wire_alg L a)) ->
  lw_protection pa && str_mem h sha2_names = true.
Proof.
  intros L pa h a P X. apply andb_true_intro. destruct P; unfold wire_alg in X; cbn [a_oid a_params wire] in X.
  - exfalso. destruct X as [X|(_ & X)]; inversion X; subst; now apply hmac_hash_spec in H.
  - exfalso. destruct X as [X|(_ & X)]; inversion X; subst; destruct H as [H|[H|[]]]; discriminate H.
  - exfalso. destruct X as [X|(_ & X)]; inversion X; subst; destruct H as [H|[H|[H|[]]]]; discriminate H.
  - split; [reflexivity|]. apply str_mem_In. destruct X as [X|(C & X)]; inversion X; subst.
    + match goal with S : seen (l_dec_pbmac1 L) _ _ _ |- _ => destruct S as [S|(b & [S|S] & _)]; inversion S; subst end.
      match goal with A : In (_, h0) hmacs |- _ => cbn [a_oid] in A; now rewrite (hmacs_fun _ _ _ H A) end.
    + assert (W : wf_params L (PPbmac1 (Alg "id_PBKDF2" (PPbkdf2 (SaltSpec s) i (Some n) (Alg o PAbsent))) (Alg o PAbsent)) = true).
      { cbn. rewrite andb_true_r. apply andb_true_intro; split; now apply Z.leb_le. }
      match goal with S : seen (l_dec_pbmac1 L) _ _ _ |- _ =>
        destruct (seen_pbmac1_fun _ _ _ _ _ _ S (seen_wire_pbmac1 _ _ _ C W)) as (_ & ->) end.
      match goal with A : In (_, h0) hmacs |- _ => cbn [a_oid wire_alg] in A; now rewrite (hmacs_fun _ _ _ H A) end.
  - split; [reflexivity|]. apply str_mem_In. destruct X as [X|(C & X)]; inversion X; subst.
    + match goal with S : seen (l_dec_pbm L) _ _ _ |- _ => destruct S as [S|(b & [S|S] & _)]; inversion S; subst end.
      match goal with A : In (_, h0) hmacs |- _ => cbn [a_oid] in A; now rewrite (hmacs_fun _ _ _ H0 A) end.
    + match goal with S : seen (l_dec_pbm L) _ (PPbm ?x ?y ?z ?t) _ |- _ =>
        assert (S' : seen (l_dec_pbm L) (PRaw (l_enc L (PPbm s (Alg ow (PRaw [5; 0])) i (Alg o PAbsent))))
                       (PPbm s (Alg ow (PRaw [5; 0])) i (Alg o PAbsent)) (s, Alg ow (PRaw [5; 0]), i, Alg o PAbsent));
        [|destruct (seen_pbm_fun _ _ _ _ _ _ _ _ _ _ S S') as (_ & _ & _ & ->)] end.
      { right. eexists; split; [left; reflexivity|]. rewrite (ck_pbm _ C); [reflexivity|].
        cbn [wf_params wf_alg]. rewrite (proj2 (ck_null _ C)), !andb_true_r. apply Z.leb_le. lia. }
      match goal with A : In (_, h0) hmacs |- _ => cbn [a_oid] in A; now rewrite (hmacs_fun _ _ _ H0 A) end.
Qed.
Theorem mac_roundtrip_lw : forall L r1 r2 r3 m prot o m' pa w, lib_ok L -> is_urandom r1 ->
  protect_pkimessage L r1 r2 m prot o = Ok m' -> protection_get prot = Ok pa -> is_mac_protection pa = true ->
  v_password w = o_password o -> v_lw w = true ->
  (verify_pkimessage_protection L r3 (transport L m') w = Ok tt <->
   o_bad o = false /\ (pa = PA_PBMAC1 \/ pa = PA_PBM) /\ In (hash_of pa o) sha2_names).
Proof.
  intros L r1 r2 r3 m prot o m' pa w HL R H G M SP LW.
  destruct (protect_mac_value _ _ _ _ _ _ _ _ R H G M) as (a & v & v2 & pw & p & data & P & MM & HB & EP & S & D & V).
  assert (WP : with_password w pw) by (exists p; split; [congruence|auto]).
  assert (MT : mac_message (transport L m') (wire_alg L a) v2).
  { destruct MM as (A & I & Q). repeat split; auto. cbn [transport set_header m_header wire_header h_alg]. now rewrite A. }
  pose proof (transport_part _ _ _ (lk_part _ HL) D) as DT.
  pose proof (mac_wire L _ _ _ _ (r3 16) _ _ _ (lk_codec _ HL) P V) as V2.
  assert (Q : lw_protection pa && str_mem (hash_of pa o) sha2_names = true <->
              (pa = PA_PBMAC1 \/ pa = PA_PBM) /\ In (hash_of pa o) sha2_names).
  { rewrite andb_true_iff, str_mem_In. destruct pa; cbn; intuition discriminate. }
  rewrite <- Q. split.
  - intro X. destruct (proj1 (mac_decides_lw L r3 _ _ _ _ _ _ MT WP DT LW) X) as (X1 & X2). split.
    + rewrite (verify_mac_value _ _ _ _ _ _ _ _ _ MT WP DT LW X2 V2) in X. apply bytes_eqb_guard in X.
      destruct (o_bad o); [apply manip_neq in HB; congruence|reflexivity].
    + apply (lw_prepared_inv L pa _ a P). right. split; [exact (lk_codec _ HL)|exact X2].
  - intros (B & X). rewrite B in HB. inversion HB; subst v2.
    apply (mac_decides_lw L r3 _ _ _ _ _ _ MT WP DT LW). split; auto.
    exact (lw_prepared_wire _ _ _ _ (lk_codec _ HL) P X).
Qed.
