(** Proofs about making and verifying hybrid protection (C99). *)
From Coq Require Import String Ascii Lia.
From Verif Require Import Prelude PreludeFacts PyStr PyStrProofs CompLoadModel HdrModel ProtTab ProtModel ProtSpec ProtMac ProtMacMsg ProtSig ProtKind.
From Verif Require Import ProtMatchSpec ProtHybModel ProtHybSpec ProtHybProofs.
Open Scope string_scope.
Open Scope Z_scope.
Local Notation length := List.length.

(** ** The identifier that is made for a key fits it *)

Lemma pss_other : forall r kk h pss, single_key kk = true -> kk <> KRsa ->
  prepare_sig_alg_id r kk h pss false = prepare_sig_alg_id r kk h false false.
Proof.
  intros r kk h [] SK N; [|reflexivity].
  assert (G : get_signing_oid kk h true = get_signing_oid kk h false).
  { unfold get_signing_oid. replace (true && String.eqb (key_type kk) "rsa") with false; [reflexivity|].
    destruct kk; try reflexivity; try discriminate SK. now destruct N. }
  unfold prepare_sig_alg_id, get_alg_oid_from_key_hash. destruct kk; try discriminate SK; rewrite ?G; reflexivity.
Qed.
Definition chk_no_pss (p : oid * string) : bool := negb (endswith "-pss" (snd p)).
Lemma rsa_no_pss : forall o h, In (o, h) rsa_hashes -> endswith "-pss" h = false.
Proof. intros o h H. cbv [rsa_hashes In] in H. enum H; reflexivity. Qed.
Lemma substring_0_all : forall s, String.substring 0 (String.length s) s = s.
Proof. induction s as [|c s IH]; cbn; [reflexivity|]. now rewrite IH. Qed.
Lemma substring_skip : forall a b n, String.substring (String.length a) n (a ++ b) = String.substring 0 n b.
Proof. induction a as [|c a IH]; intros b n; cbn [String.length append String.substring]; [reflexivity|]. apply IH. Qed.
Lemma endswith_app : forall a b, endswith b (a ++ b) = true.
Proof.
  intros a b. unfold endswith. rewrite str_length_app.
  replace (String.length a + String.length b - String.length b)%nat with (String.length a) by lia.
  rewrite substring_skip, substring_0_all. apply String.eqb_refl.
Qed.
Lemma signing_pss : forall h o, get_signing_oid KRsa h true = Some o -> In h ["sha256"; "shake128"; "shake256"].
Proof.
  intros h o H. unfold get_signing_oid in H. change (key_type KRsa) with "rsa" in H. change (true && String.eqb "rsa" "rsa") with true in H. cbv zeta iota in H.
  change ("rsa" ++ "-" ++ h ++ "-pss") with ("rsa-" ++ h ++ "-pss") in H.
  destruct (lookup ("rsa-" ++ h ++ "-pss") _) as [x|] eqn:E.
  - apply lookup_In in E. cbn [In] in E.
    assert (P : forall y, ("rsa-" ++ h ++ "-pss") = ("rsa-" ++ y ++ "-pss") -> h = y) by (intros y Q; apply app_inj in Q; now apply rev_app_inj in Q).
    destruct E as [E|[E|[E|[]]]]; apply (f_equal fst) in E; cbn [fst] in E; symmetry in E.
    + rewrite (P "sha256" E). now left.
    + rewrite (P "shake128" E). right; now left.
    + rewrite (P "shake256" E). right; right; now left.
  - change (rlookup "rsa" TRAD_SIG_OID_2_NAME) with (@None oid) in H.
    change (rlookup "rsa" (MSG_SIG_ALG ++ SYMMETRIC_PROT_ALGO)%list) with (@None oid) in H.
    destruct (rlookup ("rsa-" ++ h ++ "-pss") OID_HASH_MAP0) as [x|] eqn:E2; [|discriminate H].
    apply rlookup_In in E2.
    assert (A : forallb chk_no_pss OID_HASH_MAP0 = true) by (vm_compute; reflexivity).
    pose proof (proj1 (forallb_forall _ _) A _ E2) as C. unfold chk_no_pss in C. cbn [snd] in C. rewrite <- app_assoc_s in C.
    rewrite endswith_app in C. discriminate C.
Qed.
Lemma pss_wf : forall L r h a, codec_ok L -> prepare_rsa_pss_alg_id r h None false = Ok a -> wf_alg L a = true.
Proof.
  intros L r h a CK H. unfold prepare_rsa_pss_alg_id in H.
  repeat match type of H with
  | (if ?c then _ else _) = _ => destruct c
  | bind _ _ = Ok _ => let x := fresh "x" in apply bind_inv in H as (x & ? & H)
  | match ?c with _ => _ end = _ => destruct c eqn:?
  end; try discriminate H; inversion H; subst; try reflexivity.
  all: unfold prepare_sha_alg_id in *.
  all: cbn [wf_alg wf_params]; rewrite ?(proj2 (ck_null _ CK)); try reflexivity.
Qed.
Lemma fits : forall L r1 r2 k h pss a data v, codec_ok L -> wf_kind (k_kind k) -> signing_key (k_kind k) = true ->
  prepare_sig_alg_id r1 (k_kind k) h pss false = Ok a -> sign_data_with_alg_id L r2 k a data = Ok v ->
  exists s, sig_scheme L a (k_kind k) s /\ sig_scheme L (wire_alg L a) (k_kind k) s /\ wf_alg L a = true /\
    l_sign L r2 s k data = Ok v /\ (is_composite a <-> is_comp (k_kind k) = true).
Proof.
  intros L r1 r2 k h pss a data v CK W SK HP HS.
  assert (NC : forall s, sig_scheme L a (k_kind k) s -> (is_composite a <-> is_comp (k_kind k) = true)).
  { intros s SS. split.
    - intro C. destruct (is_comp (k_kind k)) eqn:E; [reflexivity|]. exfalso.
      apply comp_has in C. destruct (scheme_route _ _ _ _ SS E) as [P|R].
      + unfold RSASSA_PSS_OID_2_NAME in P. apply has_In in P. cbn [List.map fst In] in P.
        destruct P as [P|[P|[P|[]]]]; rewrite <- P in C; discriminate C.
      + clear - C SS E. unfold has in C. inversion SS; subst; cbn [a_oid] in C; try discriminate C;
        match goal with
        | X : KComp _ _ = k_kind k |- _ => rewrite <- X in E; discriminate E
        | I : In _ rsa_hashes |- _ => destruct (rsa_facts _ _ I) as (_ & _ & _ & F & _); rewrite F in C; discriminate C
        | I : In _ ecdsa_hashes |- _ => destruct (ec_facts _ _ I) as (_ & _ & _ & F & _); rewrite F in C; discriminate C
        | I : In _ pss_shakes |- _ => clear - C I; cbv [pss_shakes In] in I; enum I; discriminate C
        | I : In _ stateful_oids |- _ => clear - C I; cbv [stateful_oids In] in I; enum I; discriminate C
        | I : In _ pq_key_names |- _ => destruct (pq_ok _ I) as (_ & _ & _ & _ & _ & F & _); rewrite F in C; discriminate C
        | I : In _ pq_prehash |- _ => destruct (pre_ok _ _ I) as ((_ & _ & _ & _ & _ & F & _) & _); rewrite F in C; discriminate C
        end.
    - intro E. destruct (k_kind k); try discriminate E. inversion SS; subst. unfold is_composite, composites. cbn [a_oid].
      match goal with I : In _ (List.map fst COMPOSITE_SIG_HASH) |- _ => apply in_map_iff in I as (p & <- & I); apply in_map_iff; eauto end. }
  assert (M : exists s, sig_scheme L a (k_kind k) s /\ sig_scheme L (wire_alg L a) (k_kind k) s /\ wf_alg L a = true /\
    l_sign L r2 s k data = Ok v).
  2: { destruct M as (s & S1 & S2 & S3 & S4). exists s. split; [exact S1|]. split; [exact S2|]. split; [exact S3|]. split; [exact S4|]. exact (NC s S1). }
  clear NC. unfold signing_key in SK. destruct (is_comp (k_kind k)) eqn:IC.
  - destruct (k_kind k) eqn:KK; try discriminate IC. unfold prepare_sig_alg_id in HP. unfold sign_data_with_alg_id in HS. rewrite KK in HS.
    apply bind_inv in HP as (o & _ & HP). inversion HP; subst a. cbn [a_oid] in HS.
    destruct (lookup o COMPOSITE_SIG_OID_TO_NAME) as [n|] eqn:E; [|discriminate HS]. apply comp_lookup in E as (-> & I).
    exists (SComp (endswith "-pss" n)). rewrite wire_absent. split; [now constructor|]. split; [now constructor|]. split; [reflexivity|exact HS].
  - rewrite orb_false_r in SK.
    assert (WF : prepare_sig_alg_id r1 (k_kind k) h false false = Ok a -> wf_alg L a = true).
    { intro H. unfold prepare_sig_alg_id in H. destruct (k_kind k) eqn:KK; try discriminate SK; apply bind_inv in H as (o' & HO & H);
        destruct (has o' RSASSA_PSS_OID_2_NAME); try (inversion H; reflexivity);
        exact (pss_wf _ _ _ _ CK H). }
    assert (G : prepare_sig_alg_id r1 (k_kind k) h false false = Ok a -> exists s, sig_scheme L a (k_kind k) s /\
      sig_scheme L (wire_alg L a) (k_kind k) s /\ wf_alg L a = true /\ l_sign L r2 s k data = Ok v).
    { intro H. destruct (prepare_sig_fits L r1 r2 k h a data (Ok v) CK W SK H HS) as (s & S1 & S2 & _ & S4). exists s; auto. }
    destruct pss; [|exact (G HP)].
    destruct (k_kind k) eqn:KK; try discriminate SK;
      try (apply G; rewrite pss_other in HP by congruence; exact HP).
    clear G.
    unfold prepare_sig_alg_id in HP. apply bind_inv in HP as (o & HO & HP).
    cbn [get_alg_oid_from_key_hash] in HO. destruct (get_signing_oid KRsa h true) as [x|] eqn:G; [|discriminate HO].
    assert (x = o) by congruence. subst x. pose proof (signing_pss _ _ G) as HH.
    unfold sign_data_with_alg_id in HS. rewrite KK in HS. cbn [In] in HH. clear WF.
    destruct HH as [E|[E|[E|[]]]]; subst h; vm_compute in G; inversion G; subst o; clear G HO; vm_compute in HP.
    + assert (EA : a = Alg "id_RSASSA_PSS" (PPss (Alg "id_sha256" (PRaw [5; 0])) (Alg "id_mgf1" (PAlg (Alg "id_sha256" (PRaw [5; 0])))) 32)) by congruence.
      subst a. clear HP. exists (SPss "sha256" 32).
      assert (WF : wf_params L (PPss (Alg "id_sha256" (PRaw [5; 0])) (Alg "id_mgf1" (PAlg (Alg "id_sha256" (PRaw [5; 0])))) 32) = true)
        by (cbn [wf_params wf_alg]; now rewrite (proj2 (ck_null _ CK))).
      split; [|split; [|split]].
      * apply (SG_pss L _ (Alg "id_sha256" (PRaw [5; 0])) (Alg "id_mgf1" (PAlg (Alg "id_sha256" (PRaw [5; 0])))) (Alg "id_sha256" (PRaw [5; 0])) 32 "sha256");
          [now left|cbn; tauto|reflexivity|now left|reflexivity].
      * unfold wire_alg. cbn [a_oid a_params wire].
        apply (SG_pss L _ (Alg "id_sha256" (PRaw [5; 0])) (Alg "id_mgf1" (PRaw (l_enc L (PAlg (Alg "id_sha256" (PRaw [5; 0])))))) (Alg "id_sha256" (PRaw [5; 0])) 32 "sha256").
        -- right. eexists; split; [now left|]. rewrite (ck_pss _ CK _ _ _ WF). reflexivity.
        -- cbn; tauto.
        -- reflexivity.
        -- right. eexists; split; [now left|]. cbn [a_params]. rewrite (ck_alg _ CK); [reflexivity|].
           cbn [wf_params wf_alg]. exact (proj2 (ck_null _ CK)).
        -- reflexivity.
      * exact WF.
      * rewrite <- HS. unfold sign_data. rewrite KK. reflexivity.
    + assert (EA : a = Alg "id_RSASSA_PSS_SHAKE128" PAbsent) by congruence. subst a. clear HP. exists (SPssShake "shake128" 32). rewrite wire_absent.
      split; [apply SG_shake; now left|]. split; [apply SG_shake; now left|]. split; [reflexivity|]. rewrite <- HS. unfold sign_data. rewrite KK. reflexivity.
    + assert (EA : a = Alg "id_RSASSA_PSS_SHAKE256" PAbsent) by congruence. subst a. clear HP. exists (SPssShake "shake256" 64). rewrite wire_absent.
      split; [apply SG_shake; right; now left|]. split; [apply SG_shake; right; now left|]. split; [reflexivity|]. rewrite <- HS. unfold sign_data. rewrite KK. reflexivity.
Qed.

(** ** What protection leaves in the message *)

Lemma patch_info : forall b h c, h_info (patch_sender_and_sender_kid b h c) = h_info h.
Proof. intros [] h [x|]; try reflexivity. cbn [patch_sender_and_sender_kid]. destruct (c_ski x), (h_kid h); reflexivity. Qed.
Lemma patch_certs_inv : forall Y m o m1, patch_extra_certs Y m o = Ok m1 -> m_header m1 = m_header m /\ m_body m1 = m_body m.
Proof.
  intros Y m o m1 H. unfold patch_extra_certs in H. destruct (yo_cert o); [|inversion H; subst; auto]. destruct (yo_exclude o); [inversion H; subst; auto|].
  destruct (yo_dir o); [inversion H; subst; auto|]. apply bind_inv in H as (l' & _ & H). inversion H; subst; auto.
Qed.
Lemma patched_certs : forall Y m o m1, patch_extra_certs Y m o = Ok m1 -> sent_certs Y m o (m_certs m1).
Proof.
  intros Y m o m1 H. unfold patch_extra_certs in H. unfold sent_certs. destruct (yo_cert o) as [c|]; [|inversion H; reflexivity].
  destruct (yo_exclude o); [inversion H; reflexivity|]. destruct (yo_dir o) as [|d ds]; [inversion H; reflexivity|].
  apply bind_inv in H as (l & C & H). inversion H; subst m1. eauto.
Qed.
Lemma sig_keeps : forall L Y r1 r2 k m o m', sig_protection L Y r1 r2 k m o = Ok m' -> m_certs m' = m_certs m.
Proof.
  intros L Y r1 r2 k m o m' H. unfold sig_protection in H. cbv zeta in H. apply bind_inv in H as (a & _ & H). apply bind_inv in H as (d & _ & H).
  apply bind_inv in H as (v & _ & H). apply bind_inv in H as (v2 & _ & H). inversion H; reflexivity.
Qed.
Lemma protect_certs : forall L Y r1 r2 r3 m k prot alt o m', protect_hybrid L Y r1 r2 r3 m (Some k) prot alt o = Ok m' -> sent_certs Y m o (m_certs m').
Proof.
  intros L Y r1 r2 r3 m k prot alt o m' H. unfold protect_hybrid in H. cbv zeta in H. apply bind_inv in H as ([] & _ & H).
  apply bind_inv in H as (m1 & P & H). apply patched_certs in P. change (sent_certs Y m o (m_certs m1)) in P.
  assert (E : m_certs m' = m_certs m1); [|now rewrite E].
  destruct (String.eqb prot "signature"); [now apply sig_keeps in H|].
  destruct (String.eqb prot "composite"); [apply bind_inv in H as (k' & _ & H); now apply sig_keeps in H|].
  destruct alt as [x|]; [|discriminate]. unfold catalyst_protection in H. cbv zeta in H.
  apply bind_inv in H as (a & _ & H). apply bind_inv in H as (b & _ & H). apply bind_inv in H as (c & _ & H). apply bind_inv in H as (d & _ & H).
  apply bind_inv in H as (e & _ & H). apply bind_inv in H as (f & _ & H). apply bind_inv in H as (g & _ & H). apply bind_inv in H as (h & _ & H).
  inversion H; reflexivity.
Qed.
Definition same_start (m m1 : msg) : Prop := h_info (m_header m1) = h_info (m_header m) /\ m_body m1 = m_body m.
Lemma protect_start : forall L Y r1 r2 r3 m k prot alt o m', protect_hybrid L Y r1 r2 r3 m (Some k) prot alt o = Ok m' ->
  exists m1, same_start m m1 /\ str_mem prot ["signature"; "composite"; "catalyst"] = true /\
    (if String.eqb prot "signature" then sig_protection L Y r1 r2 k m1 o
     else if String.eqb prot "composite" then
        let! k' := match alt with
                   | None => Ok k
                   | Some x => match k_kind x with KPq _ => y_combine Y x k | _ => y_combine Y k x end
                   end in
        sig_protection L Y r1 r2 k' m1 o
      else match alt with
           | None => Err EValueError
           | Some x => catalyst_protection L Y r1 r2 r3 k x m1 o
           end) = Ok m'.
Proof.
  intros L Y r1 r2 r3 m k prot alt o m' H. unfold protect_hybrid in H. cbv zeta in H. apply bind_inv in H as ([] & G & H).
  apply guard_true in G. apply bind_inv in H as (m1 & P & H). exists m1. split; [|auto].
  apply patch_certs_inv in P as (P1 & P2). split; [|exact P2]. rewrite P1. cbn [set_header m_header]. apply patch_info.
Qed.
Lemma used_sig : forall L Y r1 r2 r3 m k prot alt o m' K, protect_hybrid L Y r1 r2 r3 m (Some k) prot alt o = Ok m' ->
  used_key Y k prot alt K -> exists m1, same_start m m1 /\ sig_protection L Y r1 r2 K m1 o = Ok m'.
Proof.
  intros L Y r1 r2 r3 m k prot alt o m' K H U. destruct (protect_start _ _ _ _ _ _ _ _ _ _ _ H) as (m1 & ST & _ & P). exists m1. split; [exact ST|].
  inversion U; subst; cbn [String.eqb Ascii.eqb Bool.eqb] in P.
  - exact P.
  - exact P.
  - match goal with X : k_kind _ = KPq _ |- _ => rewrite X in P end.
    match goal with X : y_combine _ _ _ = _ |- _ => rewrite X in P end. exact P.
  - assert (Q : y_combine Y k x = Ok K) by assumption.
    destruct (k_kind x); try discriminate; rewrite Q in P; exact P.
Qed.
Lemma sig_prot_inv : forall L Y r1 r2 K m1 o m', sig_protection L Y r1 r2 K m1 o = Ok m' ->
  exists a v v2 data, prepare_sig_alg_id r1 (k_kind K) (dflt (yo_hash o) "sha256") (dflt (yo_pss o) true) false = Ok a /\
    alg_is m' a /\ part_of L m' data /\ sign_data_with_alg_id L r2 K a data = Ok v /\
    (if yo_bad o then manipulate_bytes_based_on_key Y v K else Ok v) = Ok v2 /\ m_prot m' = Some v2 /\
    h_info (m_header m') = h_info (m_header m1).
Proof.
  intros L Y r1 r2 K m1 o m' H. unfold sig_protection in H. cbv zeta in H. apply bind_inv in H as (a & A & H).
  apply bind_inv in H as (data & D & H). apply bind_inv in H as (v & V & H). apply bind_inv in H as (v2 & V2 & H).
  inversion H; subst. exists a, v, v2, data. apply protected_part_ok in D. do 7 (split; auto); reflexivity.
Qed.

(** ** The key of the verifier *)

Lemma hybrid_key_fun : forall Y c others k k', hybrid_key Y c others k -> hybrid_key Y c others k' -> k = k'.
Proof.
  intros Y c others k k' H H'. destruct H as [k C P|k1 k2 p t n k C A P D N I T E]; inversion H' as [? C' P'|k1' k2' p' t' n' ? C' A' P' D' N' I' T' E']; subst; try congruence.
  assert (k1' = k1) by congruence. assert (k2' = k2) by congruence. subst.
  destruct D as [((x & X) & -> & ->)|(X & -> & ->)], D' as [((x' & X') & -> & ->)|(X' & -> & ->)]; try congruence; exfalso.
  all: first [exact (X' _ X)|exact (X _ X')].
Qed.
Lemma verifier_fun : forall Y m public a k k', verifier Y m public a k -> verifier Y m public a k' -> k = k'.
Proof.
  intros Y m public a k k' H H'. destruct H as [k C P X|c others k C P M X|c others k C M X]; inversion H' as [? C' P' X'|? ? ? C' P' M' X'|? ? ? C' M' X']; subst; try contradiction; try congruence.
  - destruct P'. exists k; auto.
  - destruct P. exists k'; auto.
  - assert (Q : (c0, others0) = (c, others)) by congruence. inversion Q; subst. eapply hybrid_key_fun; eauto.
Qed.
Lemma verifier_wire : forall L Y m public a k, verifier Y m public a k -> verifier Y (transport L m) public (wire_alg L a) k.
Proof.
  intros L Y m public a k H. destruct H.
  - now apply VK_public.
  - eapply VK_hybrid; eauto.
  - eapply VK_cert; eauto.
Qed.
Lemma none_wire : forall L t l, none_of t l -> none_of t (List.map (wire_info L) l).
Proof. intros L t l H i I. apply in_map_iff in I as (j & <- & J). exact (H j J). Qed.

(** ** Signatures *)

Lemma plain_decides : forall L Y m public must a v data K s, keys_wf Y m public -> no_hybrid (h_info (m_header m)) ->
  alg_is m a -> m_prot m = Some v -> part_of L m data -> sig_scheme L a (k_kind K) s -> verifier Y m public a K ->
  (fst (verify_hybrid L Y m public must) = Ok tt <-> l_verify L s K v data = Ok tt /\ (is_composite a \/ must = false)).
Proof.
  intros L Y m public must a v data K s W (N1 & N2 & N3) A P D SC V. rewrite (hybrid_exact L Y m public must W). split.
  - intros (a' & v' & d' & k' & A' & P' & D' & V' & (s' & S' & X) & C).
    assert (a' = a) by (unfold alg_is in *; congruence). assert (v' = v) by congruence. subst.
    assert (d' = data). { apply protected_part_ok in D, D'. congruence. } subst.
    rewrite (verifier_fun _ _ _ _ _ _ V' V) in *. rewrite (scheme_fun _ _ _ _ _ S' SC) in X. split; [exact X|].
    destruct (comp_dec a) as [Q|Q]; [now left|right]. destruct (C Q) as (_ & [(_ & M)|(c & others & _ & i & j & aa & vv & kk & dd & LE & _)]); [exact M|].
    destruct (last_none _ _ _ LE N1).
  - intros (X & M). exists a, v, data, K. do 4 (split; [assumption|]). split; [exists s; auto|].
    intro Q. split.
    + intros i I. split; [intro T; destruct (N1 _ I T)|split; [intro T; destruct (N2 _ I T)|intro T; destruct (N3 _ I T)]].
    + left. split; [split; assumption|]. destruct M as [M|M]; [contradiction|exact M].
Qed.
Lemma keys_wf_wire : forall L Y m public, keys_wf Y m public -> keys_wf Y (transport L m) public.
Proof. intros L Y m public [A B C D E]. constructor; auto. Qed.
Theorem signature_decides : forall L Y r1 r2 r3 m k prot alt o m' K public must, lib_ok L ->
  protect_hybrid L Y r1 r2 r3 m (Some k) prot alt o = Ok m' -> used_key Y k prot alt K -> wf_kind (k_kind K) ->
  signing_key (k_kind K) = true -> keys_wf Y m' public -> no_hybrid (h_info (m_header m)) ->
  exists a s v v2 data, alg_is m' a /\ (is_composite a <-> is_comp (k_kind K) = true) /\ sig_scheme L a (k_kind K) s /\
    part_of L m' data /\ l_sign L r2 s K data = Ok v /\
    (if yo_bad o then manipulate_bytes_based_on_key Y v K else Ok v) = Ok v2 /\
    (verifier Y m' public a K ->
       (fst (verify_hybrid L Y m' public must) = Ok tt <-> l_verify L s K v2 data = Ok tt /\ (is_comp (k_kind K) = true \/ must = false)) /\
       (fst (verify_hybrid L Y (transport L m') public must) = Ok tt <-> l_verify L s K v2 data = Ok tt /\ (is_comp (k_kind K) = true \/ must = false))).
Proof.
  intros L Y r1 r2 r3 m k prot alt o m' K public must HL H U W SK KW NH.
  destruct (used_sig _ _ _ _ _ _ _ _ _ _ _ _ H U) as (m1 & (ST & _) & P).
  destruct (sig_prot_inv _ _ _ _ _ _ _ _ P) as (a & v & v2 & data & PA & A & D & SG & B & MP & HI).
  destruct (fits L r1 r2 K _ _ a data v (lk_codec _ HL) W SK PA SG) as (s & S1 & S2 & _ & LS & IC).
  exists a, s, v, v2, data. do 6 (split; [assumption|]). intro V.
  assert (NH' : no_hybrid (h_info (m_header m'))) by (rewrite HI, ST; exact NH).
  rewrite <- IC. split.
  - now apply plain_decides.
  - assert (Q : is_composite a <-> is_composite (wire_alg L a)) by reflexivity. rewrite Q. apply plain_decides; auto.
    + now apply keys_wf_wire.
    + destruct NH' as (X1 & X2 & X3). split; [now apply none_wire|split; now apply none_wire].
    + unfold alg_is in *. cbn [transport set_header m_header wire_header h_alg]. now rewrite A.
    + apply transport_part; [exact (lk_part _ HL)|exact D].
    + now apply verifier_wire.
Qed.
Theorem signature_roundtrip : forall L Y r1 r2 r3 m k prot alt o m' K public must, lib_ok L ->
  protect_hybrid L Y r1 r2 r3 m (Some k) prot alt o = Ok m' -> used_key Y k prot alt K -> wf_kind (k_kind K) ->
  signing_key (k_kind K) = true -> yo_bad o = false -> keys_wf Y m' public -> no_hybrid (h_info (m_header m)) ->
  exists a, alg_is m' a /\ (is_composite a <-> is_comp (k_kind K) = true) /\
    (verifier Y m' public a K ->
       (fst (verify_hybrid L Y m' public must) = Ok tt <-> (is_comp (k_kind K) = true \/ must = false)) /\
       (fst (verify_hybrid L Y (transport L m') public must) = Ok tt <-> (is_comp (k_kind K) = true \/ must = false))).
Proof.
  intros L Y r1 r2 r3 m k prot alt o m' K public must HL H U W SK NB KW NH.
  destruct (signature_decides L Y r1 r2 r3 m k prot alt o m' K public must HL H U W SK KW NH) as (a & s & v & v2 & data & A & IC & SC & D & LS & B & V).
  exists a. split; [exact A|]. split; [exact IC|]. intro VV. destruct (V VV) as (V1 & V2). rewrite NB in B. inversion B; subst v2.
  pose proof (pm_sig _ (lk_prim _ HL) _ _ _ _ _ LS) as Q. split; [rewrite V1|rewrite V2]; (split; [intros (_ & X); exact X|intro X; split; [exact Q|exact X]]).
Qed.

(** ** The alternative signature *)

Lemma filter_app' : forall l1 l2, filter keep (l1 ++ l2)%list = (filter keep l1 ++ filter keep l2)%list.
Proof. intros. apply filter_app. Qed.
Lemma filter_none : forall l, none_of alt_sig l -> filter keep l = l.
Proof.
  induction l as [|i l IH]; intro N; [reflexivity|]. apply none_cons in N as (A & N). cbn [filter]. unfold keep at 1.
  destruct (String.eqb (i_type i) alt_sig) eqn:E; [apply String.eqb_eq in E; contradiction|]. cbn [negb]. now rewrite IH.
Qed.
Lemma none_app : forall t l1 l2, none_of t (l1 ++ l2)%list <-> none_of t l1 /\ none_of t l2.
Proof. intros t l1 l2; unfold none_of; split; [intro H; split; intros i I; apply H; apply in_or_app; auto|intros (A & B) i I; apply in_app_or in I as [I|I]; auto]. Qed.
Lemma without_transport : forall L m, without_alt (transport L m) = transport L (without_alt m).
Proof.
  intros L m. rewrite !without_alt_eq. unfold transport, set_header, set_infos, wire_header.
  cbn [m_header m_body m_prot m_certs h_sender h_alg h_kid h_tx h_info h_rest].
  assert (E : filter keep (List.map (wire_info L) (h_info (m_header m))) = List.map (wire_info L) (filter keep (h_info (m_header m)))).
  { induction (h_info (m_header m)) as [|i l IH]; [reflexivity|].
    cbn [List.map filter]. change (keep (wire_info L i)) with (keep i). destruct (keep i); cbn [List.map]; now rewrite IH. }
  now rewrite E.
Qed.
Definition alg_entry (L : lib) (aa : algid) : info := {| i_type := alt_alg; i_val := PRaw (l_enc L (PAlg aa)) |}.
Definition key_entry (b : bytes) : info := {| i_type := alt_spki; i_val := PRaw b |}.
Definition sig_entry (Y : hyb) (s : bytes) : info := {| i_type := alt_sig; i_val := PRaw (y_enc_bits Y s) |}.
Lemma decodes_raw : forall A (dec : bytes -> option (A * bytes)) b x r, dec b = Some (x, r) -> decodes dec (PRaw b) x.
Proof. intros A dec b x r H. exists b, r. split; [now left|exact H]. Qed.
Lemma catalyst_decides : forall L Y m public must base aa aw pub s2 a v data2 k x s data c others,
  keys_wf Y m public -> hyb_ok Y -> h_info (m_header m) = ((base ++ alg_entry L aa :: pub) ++ [sig_entry Y s2])%list -> no_hybrid base ->
  (pub = [] /\ y_alt Y c others = Ok (Some x) \/ exists b, pub = [key_entry b] /\ y_dec_spki Y b = Some (Ok x, [])) ->
  l_dec_alg L (l_enc L (PAlg aa)) = Some (aw, []) -> sig_scheme L aw (k_kind x) s -> alg_is m a -> ~ is_composite a ->
  m_prot m = Some v -> part_of L m data2 -> m_certs m = (c :: others)%list -> c_pub c = Ok k -> sig_valid L a k data2 v ->
  part_of L (without_alt m) data ->
  (fst (verify_hybrid L Y m public must) = Ok tt <-> l_verify L s x s2 data = Ok tt).
Proof.
  intros L Y m public must base aa aw pub s2 a v data2 k x s data c others KW HY HI (N1 & N2 & N3) PUB DA SC A NC MP D2 MC CP SV D.
  assert (NP : none_of alt_alg pub /\ none_of alt_sig pub).
  { destruct PUB as [(-> & _)|(b & -> & _)]; split; intros i I; cbn in I; try contradiction; destruct I as [<-|[]]; discriminate. }
  assert (LA : last_entry alt_alg (h_info (m_header m)) (alg_entry L aa)).
  { exists base, (pub ++ [sig_entry Y s2])%list. rewrite HI, <- app_assoc. split; [reflexivity|]. split; [reflexivity|].
    intros j J. apply in_app_or in J as [J|[<-|[]]]; [exact (proj1 NP j J)|discriminate]. }
  assert (LS : last_entry alt_sig (h_info (m_header m)) (sig_entry Y s2)).
  { exists (base ++ alg_entry L aa :: pub)%list, []. rewrite HI. split; [reflexivity|]. split; [reflexivity|intros j []]. }
  assert (AK : forall x', alt_key Y c others (h_info (m_header m)) x' <-> x' = x).
  { intro x'. destruct PUB as [(-> & YA)|(b & -> & DB)].
    - assert (NN : none_of alt_spki (h_info (m_header m))).
      { rewrite HI. rewrite !none_app. split; [split; [exact N2|]|]; intros i [<-|[]]; discriminate. }
      split.
      + intro H. inversion H as [i k0 LE DE|k0 NE YE]; subst; [destruct (last_none _ _ _ LE NN)|]. congruence.
      + intros ->. now apply AK_cert.
    - assert (LE : last_entry alt_spki (h_info (m_header m)) (key_entry b)).
      { exists (base ++ [alg_entry L aa])%list, [sig_entry Y s2]. rewrite HI, <- !app_assoc. split; [reflexivity|]. split; [reflexivity|].
        intros j [<-|[]]; discriminate. }
      pose proof (decodes_raw _ _ _ _ _ DB) as DE. split.
      + intro H. inversion H as [i k0 LE' DE'|k0 NE YE]; subst; [|destruct (last_none _ _ _ LE NE)].
        rewrite (last_fun _ _ _ _ LE' LE) in DE'. cbn [key_entry i_val] in DE'. pose proof (decodes_fun _ _ _ _ _ DE' DE). congruence.
      + intros ->. exact (AK_message _ _ _ _ _ _ LE DE). }
  pose proof (decodes_raw _ _ _ _ _ DA) as DDA. pose proof (decodes_raw _ _ _ _ _ (hk_bits _ HY s2)) as DDS.
  rewrite (hybrid_exact L Y m public must KW). split.
  - intros (a' & v' & d' & k' & A' & _ & _ & _ & _ & C). assert (a' = a) by (unfold alg_is in *; congruence). subst a'.
    destruct (C NC) as (_ & [((NN & _) & _)|(c' & o' & MC' & i & j & aa' & vv & kk & dd & LA' & DA' & LS' & DS' & K' & D' & s' & SS & VV)]).
    + destruct (last_none _ _ _ LA NN).
    + assert (c' = c /\ o' = others) as (-> & ->) by (split; congruence). rewrite (last_fun _ _ _ _ LA' LA) in DA'. rewrite (last_fun _ _ _ _ LS' LS) in DS'.
      rewrite (decodes_fun _ _ _ _ _ DA' DDA) in *. rewrite (decodes_fun _ _ _ _ _ DS' DDS) in *. apply AK in K'. subst kk.
      assert (dd = data). { apply protected_part_ok in D, D'. congruence. } subst dd.
      now rewrite (scheme_fun _ _ _ _ _ SS SC) in VV.
  - intro V. exists a, v, data2, k. do 3 (split; [assumption|]). split; [eapply VK_cert; eauto|]. split; [exact SV|]. intros _. split.
    + intros i I. rewrite HI in I. rewrite <- app_assoc in I. apply in_app_or in I as [I|I].
      * split; [intro T; destruct (N1 _ I T)|split; [intro T; destruct (N2 _ I T)|intro T; destruct (N3 _ I T)]].
      * cbn [app] in I. destruct I as [<-|I].
        -- split; [intros _; eexists; exact DDA|split; discriminate].
        -- apply in_app_or in I as [I|[<-|[]]].
           ++ destruct PUB as [(-> & _)|(b & -> & DB)]; [destruct I|]. destruct I as [<-|[]].
              split; [discriminate|]. split; [|discriminate]. intros _. eexists. exact (decodes_raw _ _ _ _ _ DB).
           ++ split; [discriminate|]. split; [discriminate|]. intros _. eexists. exact DDS.
    + right. exists c, others. split; [exact MC|]. exists (alg_entry L aa), (sig_entry Y s2), aw, s2, x, data.
      do 4 (split; [assumption|]). split; [now apply AK|]. split; [exact D|]. exists s. auto.
Qed.
Lemma catalyst_inv : forall L Y r1 r2 r3 m k x o m', protect_hybrid L Y r1 r2 r3 m (Some k) "catalyst" (Some x) o = Ok m' ->
  exists aa a pub d1 s s2 d2 v h,
    prepare_sig_alg_id r1 (k_kind x) (dflt (yo_hash o) "sha256") (dflt (yo_pss o) true) false = Ok aa /\
    prepare_sig_alg_id r1 (k_kind k) (dflt (yo_hash o) "sha256") (dflt (yo_pss o) true) false = Ok a /\
    (if yo_include o then exists b, y_enc_spki Y x = Ok b /\ pub = [key_entry b] else pub = []) /\
    h_info h = (h_info (m_header m) ++ alg_entry L aa :: pub)%list /\ part_of L (set_header m' h) d1 /\
    sign_data_with_alg_id L r2 x aa d1 = Ok s /\ (if yo_bad o then manipulate_first_byte s else Ok s) = Ok s2 /\
    m_header m' = set_infos h (h_info h ++ [sig_entry Y s2])%list /\ alg_is m' a /\ m_body m' = m_body m /\ part_of L m' d2 /\
    sign_data_with_alg_id L r3 k a d2 = Ok v /\ m_prot m' = Some v.
Proof.
  intros L Y r1 r2 r3 m k x o m' H. destruct (protect_start _ _ _ _ _ _ _ _ _ _ _ H) as (m1 & (ST & SB) & _ & P).
  cbn [String.eqb Ascii.eqb Bool.eqb] in P. unfold catalyst_protection in P. cbv zeta in P. clear H.
  apply bind_inv in P as (aa & PA & P). apply bind_inv in P as (a & PK & P). apply bind_inv in P as (pub & PP & P).
  apply bind_inv in P as (d1 & D1 & P). apply bind_inv in P as (s & SG & P). apply bind_inv in P as (s2 & S2 & P).
  apply bind_inv in P as (d2 & D2 & P). apply bind_inv in P as (v & V & P). inversion P; subst m'; clear P.
  cbn [set_alg h_info] in *. rewrite ST in *.
  exists aa, a, pub, d1, s, s2, d2, v, (set_infos (set_alg (m_header m1) a) (h_info (m_header m) ++ alg_entry L aa :: pub)%list).
  apply protected_part_ok in D1, D2. do 2 (split; [assumption|]). split.
  { destruct (yo_include o); [|now inversion PP]. apply bind_inv in PP as (b & B & PP). inversion PP. exists b. auto. }
  split; [reflexivity|]. split; [exact D1|]. do 2 (split; [assumption|]). split; [reflexivity|]. split; [reflexivity|].
  split; [exact SB|]. split; [exact D2|]. split; [exact V|reflexivity].
Qed.
Theorem catalyst_roundtrip : forall L Y r1 r2 r3 m k x o m' c others public must, lib_ok L -> hyb_ok Y ->
  protect_hybrid L Y r1 r2 r3 m (Some k) "catalyst" (Some x) o = Ok m' -> wf_kind (k_kind k) -> wf_kind (k_kind x) ->
  single_key (k_kind k) = true -> signing_key (k_kind x) = true -> keys_wf Y m' public -> no_hybrid (h_info (m_header m)) ->
  m_certs m' = (c :: others)%list -> c_pub c = Ok k -> (yo_include o = true \/ y_alt Y c others = Ok (Some x)) ->
  exists s v v2 data, l_sign L r2 s x data = Ok v /\ (if yo_bad o then manipulate_first_byte v else Ok v) = Ok v2 /\
    part_of L (without_alt m') data /\
    (fst (verify_hybrid L Y m' public must) = Ok tt <-> l_verify L s x v2 data = Ok tt) /\
    (fst (verify_hybrid L Y (transport L m') public must) = Ok tt <-> l_verify L s x v2 data = Ok tt).
Proof.
  intros L Y r1 r2 r3 m k x o m' c others public must HL HY H WK WX SK SX KW NH MC CP INC.
  destruct (catalyst_inv _ _ _ _ _ _ _ _ _ _ H) as (aa & a & pub & d1 & s & s2 & d2 & v & h & PA & PK & PP & HI & D1 & SG & S2 & MH & A & _ & D2 & V & MP).
  assert (SK' : signing_key (k_kind k) = true) by (unfold signing_key; now rewrite SK).
  destruct (fits L r1 r2 x _ _ aa d1 s (lk_codec _ HL) WX SX PA SG) as (sx & _ & X2 & X3 & XS & _).
  destruct (fits L r1 r3 k _ _ a d2 v (lk_codec _ HL) WK SK' PK V) as (sk & K1 & K2 & _ & KS & KC).
  assert (NC : ~ is_composite a). { intro Q. apply KC in Q. destruct (k_kind k); discriminate. }
  pose proof (pm_sig _ (lk_prim _ HL) _ _ _ _ _ KS) as KV.
  assert (PUB : pub = [] /\ y_alt Y c others = Ok (Some x) \/ exists b, pub = [key_entry b] /\ y_dec_spki Y b = Some (Ok x, [])).
  { destruct (yo_include o).
    - right. destruct PP as (b & B & ->). exists b. split; [reflexivity|]. now apply (hk_spki _ HY).
    - left. split; [exact PP|]. destruct INC as [INC|INC]; [discriminate|exact INC]. }
  assert (W : without_alt m' = set_header m' h).
  { rewrite without_alt_eq, MH. cbn [set_infos h_info]. rewrite filter_app'. cbn [filter keep sig_entry i_type].
    change (negb (String.eqb alt_sig alt_sig)) with false. cbn iota. rewrite app_nil_r, filter_none.
    - destruct h; reflexivity.
    - rewrite HI. apply none_app. split; [exact (proj2 (proj2 NH))|]. apply none_cons. split; [discriminate|].
      destruct PUB as [(-> & _)|(b & -> & _)]; intros i I; cbn in I; [contradiction|]. destruct I as [<-|[]]; discriminate. }
  assert (DW : part_of L (without_alt m') d1) by (rewrite W; exact D1).
  assert (DA : l_dec_alg L (l_enc L (PAlg aa)) = Some (wire_alg L aa, [])) by (apply (ck_alg _ (lk_codec _ HL)); exact X3).
  exists sx, s, s2, d1. do 3 (split; [assumption|]).
  assert (HI' : h_info (m_header m') = ((h_info (m_header m) ++ alg_entry L aa :: pub) ++ [sig_entry Y s2])%list) by (rewrite MH; cbn [set_infos h_info]; now rewrite HI).
  split.
  - eapply catalyst_decides; eauto. exists sk. auto.
  - eapply (catalyst_decides L Y (transport L m') public must (List.map (wire_info L) (h_info (m_header m))) aa (wire_alg L aa) pub s2 (wire_alg L a) v d2 k x sx d1 c others); eauto.
    + now apply keys_wf_wire.
    + cbn [transport set_header m_header wire_header h_info]. rewrite HI', !map_app. cbn [List.map].
      assert (EP : List.map (wire_info L) pub = pub) by (destruct PUB as [(-> & _)|(b & -> & _)]; reflexivity). rewrite EP. reflexivity.
    + destruct NH as (Q1 & Q2 & Q3). split; [now apply none_wire|split; now apply none_wire].
    + unfold alg_is in *. cbn [transport set_header m_header wire_header h_alg]. now rewrite A.
    + apply transport_part; [exact (lk_part _ HL)|exact D2].
    + exists sk. auto.
    + rewrite without_transport. apply transport_part; [exact (lk_part _ HL)|exact DW].
Qed.
