(** Proofs about SdModel.v: which SignedData is accepted. *)
From Coq Require Import String Lia.
From Verif Require Import Prelude PyStr ProtTab CertChainModel BitModel SdModel SdSpec SdAlgs.
From Verif Require Import ProtMac ChamProofs EnvlProofs.
Open Scope string_scope.
Open Scope Z_scope.
Open Scope list_scope.

(** ** Attributes *)

Lemma loop_app L n b : forall c f d, attrs_loop L n (b ++ c) f d = (let! (f', d') := attrs_loop L n b f d in attrs_loop L n c f' d').
Proof.
  induction b as [|a b IH]; intros c f d; [reflexivity|]. cbn [app attrs_loop].
  destruct (String.eqb (t_type a) CONTENT_TYPE); [apply IH|]. destruct (String.eqb (t_type a) MESSAGE_DIGEST); [|apply IH].
  destruct (guard _ _); [|reflexivity]. cbn [bind]. destruct (t_vals a) as [|v ?]; [reflexivity|].
  destruct (l_octdec L v) as [[x y]|]; [apply IH|reflexivity].
Qed.
Definition names_package (L : lib) (a : attr) : Prop := t_type a = "id_contentType" /\ In (l_oidenc L "id_ct_KP_aKeyPackage") (t_vals a).
Lemma loop_found L n l : forall f d f' d', attrs_loop L n l f d = Ok (f', d') ->
  (f' = true <-> f = true \/ exists a, In a l /\ names_package L a).
Proof.
  induction l as [|a l IH]; intros f d f' d' H.
  { cbn in H. injection H as -> ->. split; [tauto|]. intros [H|(a & [] & _)]. exact H. }
  cbn [attrs_loop] in H. destruct (String.eqb (t_type a) CONTENT_TYPE) eqn:E.
  - apply String.eqb_eq in E. rewrite (IH _ _ _ _ H), Bool.orb_true_iff, existsb_exists. split.
    + intros [[H1|(v & H1 & H2)]|(x & H1 & H2)]; [tauto| |right; exists x; split; [right; exact H1|exact H2]].
      right. exists a. split; [left; reflexivity|]. apply bytes_eqb_iff in H2. subst v. split; assumption.
    + intros [H1|(x & [H1|H1] & H2)]; [tauto| |right; exists x; split; assumption].
      subst x. left. right. exists (l_oidenc L KEY_PACKAGE). split; [apply H2|apply bytes_eqb_iff; reflexivity].
  - assert (G : forall d0, attrs_loop L n l f d0 = Ok (f', d') -> f' = true <-> f = true \/ exists x, In x (a :: l) /\ names_package L x).
    { intros d0 H0. rewrite (IH _ _ _ _ H0). apply String.eqb_neq in E. split.
      - intros [H1|(x & H1 & H2)]; [tauto|right; exists x; split; [right; exact H1|exact H2]].
      - intros [H1|(x & [H1|H1] & H2)]; [tauto| |right; exists x; split; assumption]. subst x. destruct H2 as [H2 _]. contradiction. }
    destruct (String.eqb (t_type a) MESSAGE_DIGEST); [|apply (G d H)].
    bd H as u, B. destruct (t_vals a) as [|v r]; [discriminate|]. destruct (l_octdec L v) as [[x1 y1]|]; [|discriminate]. exact (G _ H).
Qed.
Lemma loop_attr L n a f d : t_type a <> "id_messageDigest" -> exists f', attrs_loop L n [a] f d = Ok (f', d).
Proof.
  intros H. cbn [attrs_loop]. destruct (String.eqb (t_type a) CONTENT_TYPE); [eexists; reflexivity|].
  apply String.eqb_neq in H. unfold MESSAGE_DIGEST. rewrite H. exists f. reflexivity.
Qed.
Lemma loop_digest L n a f d x : digest_attr L n a x -> attrs_loop L n [a] f d = Ok (f, Some x).
Proof.
  intros (H1 & H2 & v & r & y & H3 & H4). cbn [attrs_loop]. rewrite H1. cbn [String.eqb Ascii.eqb Bool.eqb CONTENT_TYPE MESSAGE_DIGEST].
  change (String.eqb "id_messageDigest" CONTENT_TYPE) with false. change (String.eqb "id_messageDigest" MESSAGE_DIGEST) with true. cbv iota.
  apply Nat.eqb_eq in H2. rewrite H2. cbn [guard bind]. rewrite H3, H4. reflexivity.
Qed.
Lemma loop_digest_inv L n a f d f' d' : t_type a = "id_messageDigest" -> attrs_loop L n [a] f d = Ok (f', d') -> exists x, d' = Some x /\ digest_attr L n a x.
Proof.
  intros H1 H. cbn [attrs_loop] in H. rewrite H1 in H.
  change (String.eqb "id_messageDigest" CONTENT_TYPE) with false in H. change (String.eqb "id_messageDigest" MESSAGE_DIGEST) with true in H.
  cbv iota in H. bd H as [], B. apply Nat.eqb_eq in B. destruct (t_vals a) as [|v r] eqn:E; [discriminate|].
  destruct (l_octdec L v) as [[x y]|] eqn:F; [|discriminate]. injection H as <- <-. exists x. split; [reflexivity|].
  split; [exact H1|]. rewrite E. split; [exact B|]. exists v, r, y. split; [reflexivity|exact F].
Qed.
Lemma md_dec a : {t_type a = "id_messageDigest"} + {t_type a <> "id_messageDigest"}.
Proof. apply string_dec. Qed.
Lemma loop_run L n l : forall f d, (forall a, In a l -> t_type a = "id_messageDigest" -> exists x, digest_attr L n a x) ->
  exists r, attrs_loop L n l f d = Ok r.
Proof.
  induction l as [|a l IH]; intros f d H; [eexists; reflexivity|].
  change (a :: l) with ([a] ++ l). rewrite loop_app. destruct (md_dec a) as [E|E].
  - destruct (H a (or_introl eq_refl) E) as [x Hx]. rewrite (loop_digest _ _ _ _ _ _ Hx). cbn [bind]. apply IH. intros; apply H; [right|]; assumption.
  - destruct (loop_attr L n a f d E) as [f' ->]. cbn [bind]. apply IH. intros; apply H; [right|]; assumption.
Qed.
Lemma loop_quiet L n l : forall f d, (forall a, In a l -> t_type a <> "id_messageDigest") -> exists f', attrs_loop L n l f d = Ok (f', d).
Proof.
  induction l as [|a l IH]; intros f d H; [eexists; reflexivity|].
  change (a :: l) with ([a] ++ l). rewrite loop_app. destruct (loop_attr L n a f d (H a (or_introl eq_refl))) as [f' ->]. cbn [bind].
  apply IH. intros; apply H. right. assumption.
Qed.
Lemma loop_inv L n l : forall f d f' d', attrs_loop L n l f d = Ok (f', d') ->
  (forall a, In a l -> t_type a = "id_messageDigest" -> exists x, digest_attr L n a x)
  /\ ((d' = d /\ forall a, In a l -> t_type a <> "id_messageDigest")
      \/ exists b a c x, l = b ++ a :: c /\ digest_attr L n a x /\ d' = Some x /\ forall a', In a' c -> t_type a' <> "id_messageDigest").
Proof.
  induction l as [|a l IH]; intros f d f' d' H.
  { cbn in H. injection H as <- <-. split; [intros a []|left; split; [reflexivity|intros a []]]. }
  change (a :: l) with ([a] ++ l) in H. rewrite loop_app in H. bd H as [f1 d1], B. destruct (IH _ _ _ _ H) as [H1 H2].
  destruct (md_dec a) as [E|E].
  - destruct (loop_digest_inv _ _ _ _ _ _ _ E B) as (x & -> & Hx). split.
    + intros y [<-|Hy] T; [exists x; exact Hx|exact (H1 y Hy T)].
    + right. destruct H2 as [[-> H2]|(b & y & c & z & -> & H2)].
      * exists [], a, l, x. repeat split; assumption || apply Hx.
      * exists (a :: b), y, c, z. split; [reflexivity|exact H2].
  - destruct (loop_attr L n a f d E) as [f2 E2]. rewrite E2 in B. injection B as <- <-. split.
    + intros y [<-|Hy] T; [contradiction|exact (H1 y Hy T)].
    + destruct H2 as [[-> H2]|(b & y & c & z & -> & H2)].
      * left. split; [reflexivity|]. intros y [<-|Hy]; [exact E|exact (H2 y Hy)].
      * right. exists (a :: b), y, c, z. split; [reflexivity|exact H2].
Qed.
Lemma attrs_iff L n l d : check_attrs L n l = Ok d <-> attributes_give L n l d.
Proof.
  unfold check_attrs. split.
  - intros H. bd H as [f o], B. destruct o as [x|]; [|discriminate]. bd H as [], F. injection H as <-.
    pose proof (proj1 (loop_found _ _ _ _ _ _ _ B) F) as [?|(a & H1 & H2)]; [discriminate|].
    destruct (loop_inv _ _ _ _ _ _ _ B) as [H3 [[? _]|(b & y & c & z & -> & H4 & H5 & H6)]]; [discriminate|].
    injection H5 as ->. split; [exists a; split; [exact H1|exact H2]|]. split; [exact H3|]. exists b, y, c. split; [reflexivity|]. split; assumption.
  - intros ((a & H1 & H2 & H3) & H4 & b & y & c & -> & H5 & H6).
    assert (exists f', attrs_loop L n (b ++ y :: c) false None = Ok (f', Some d)) as [f' E].
    { rewrite loop_app. destruct (loop_run L n b false None) as [[f1 d1] ->].
      { intros x Hx. apply H4. apply in_app_iff. left. exact Hx. }
      cbn [bind]. change (y :: c) with ([y] ++ c). rewrite loop_app, (loop_digest _ _ _ _ _ _ H5). cbn [bind]. apply loop_quiet, H6. }
    rewrite E. cbn [bind]. assert (f' = true) as ->.
    { apply (loop_found _ _ _ _ _ _ _ E). right. exists a. repeat split; assumption. }
    reflexivity.
Qed.

(** ** The other parts *)

Lemma package_iff L p n i save k : check_package L p n i save = Ok k <->
  exists o, List.length p = n /\ nth_error p i = Some o /\ o_version o = 1 /\ l_load L o = Ok k
    /\ forall t, save = Some t -> l_export L k (o_private o) t = Ok tt.
Proof.
  unfold check_package. split.
  - intros H. bd H as [], B. apply Nat.eqb_eq in B. destruct (nth_error p i) as [o|]; [|discriminate]. bd H as [], C. apply Z.eqb_eq in C.
    bd H as k', D. bd H as u, F. injection H as ->. exists o. repeat split; try assumption. intros t ->. destruct u. exact F.
  - intros (o & H1 & H2 & H3 & H4 & H5). apply Nat.eqb_eq in H1. rewrite H1, H2. cbn [guard bind]. rewrite H3. cbn [guard bind Z.eqb Pos.eqb].
    rewrite H4. cbn [bind]. destruct save as [t|]; [rewrite (H5 t eq_refl)|]; reflexivity.
Qed.
Lemma plain_iff l : forall cs, plain_certs l = Ok cs <-> l = map ChCert cs.
Proof.
  induction l as [|[c|] l IH]; intros cs; cbn [plain_certs].
  - split; [intros [= <-]; reflexivity|]. destruct cs; [reflexivity|discriminate].
  - split.
    + intros H. bd H as r, B. injection H as <-. cbn. f_equal. apply IH, B.
    + intros H. destruct cs as [|c' cs]; [discriminate|]. cbn in H. injection H as -> H. apply IH in H. rewrite H. reflexivity.
  - split; [discriminate|]. destruct cs; discriminate.
Qed.
Lemma ordered_iff L l certs : get_certs L l = Ok certs <-> ordered L l certs.
Proof.
  unfold get_certs, ordered. split.
  - intros H. bd H as cs, B. apply plain_iff in B. exists cs. split; [exact B|]. destruct cs as [|f [|s r]].
    + left. injection H as <-. split; [cbn; lia|reflexivity].
    + left. injection H as <-. split; [cbn; lia|reflexivity].
    + right. bd H as a, C. bd H as b, D. bd H as [], F. apply Nat.eqb_eq in F. injection H as <-.
      exists f, (s :: r), (last (s :: r) f), (f :: removelast (s :: r)), a, b. split; [reflexivity|]. split.
      { rewrite <- app_comm_cons. f_equal. apply app_removelast_last. discriminate. }
      split; [discriminate|]. split; [exact C|]. split; [exact D|]. split; [reflexivity|exact F].
  - intros (cs & -> & H). assert (plain_certs (map ChCert cs) = Ok cs) as -> by (apply plain_iff; reflexivity). cbn [bind].
    destruct H as [[H1 ->]|(f & r & x & m & a & b & H1 & H2 & H3 & H4 & H5 & H6 & H7)].
    + destruct cs as [|f [|s r]]; [reflexivity|reflexivity|]. cbn in H1. lia.
    + subst cs. destruct r as [|s r]; [contradiction|]. assert (f :: removelast (s :: r) = m /\ last (s :: r) f = x) as [-> ->].
      { destruct m as [|f' m]; [destruct r; discriminate|]. cbn [app] in H2. injection H2 as <- H2. rewrite H2.
        rewrite removelast_last, last_last. split; reflexivity. }
      rewrite H4. cbn [bind]. rewrite H5. cbn [bind]. rewrite <- H6. apply Nat.eqb_eq in H7. rewrite H7. reflexivity.
Qed.
Lemma pq_cert_iff L c : has (g_oid (l_spki L c)) COMPOSITE_SIG_OID_TO_NAME || has (g_oid (l_spki L c)) PQ_SIG_OID_2_NAME = true <-> pq_cert L c.
Proof.
  unfold pq_cert. change (map fst pq_keys) with (members CPq). change (map fst composite_keys) with (members CComp).
  rewrite has_comp, has_pq, Bool.orb_true_iff, !cls_eqb_iff, in_app_iff, !In_class by discriminate. tauto.
Qed.
Lemma hybrid_iff L certs : hybrid_chain L certs = true <-> exists c, In c certs /\ pq_cert L c.
Proof.
  unfold hybrid_chain. rewrite existsb_exists. split; intros (c & H1 & H2); exists c; (split; [exact H1|]); apply pq_cert_iff; exact H2.
Qed.
Lemma same_certs_iff a : forall b, same_certs a b = true <-> map c_der a = map c_der b.
Proof.
  induction a as [|x a IH]; intros [|y b]; cbn [same_certs map]; try (split; [discriminate|discriminate]); [tauto|].
  rewrite Bool.andb_true_iff, bytes_eqb_iff, IH. split; [intros [-> ->]; reflexivity|]. intros H. injection H as -> ->. tauto.
Qed.
Lemma anchor_iff c dir os : certificates_are_trustanchors [c] (Some dir) os true = Ok tt <-> exists x, In x (dir ++ os) /\ c_der x = c_der c.
Proof.
  unfold certificates_are_trustanchors, load_truststore. split.
  - intros H. bd H as [], B. apply guard_iff in H. cbn [forallb] in H. rewrite Bool.andb_true_r in H. unfold cert_in_list in H.
    apply existsb_exists in H. destruct H as (x & H1 & H2). apply bytes_eqb_iff in H2. exists x. split; [exact H1|congruence].
  - intros (x & H1 & H2). destruct (dir ++ os) as [|y l] eqn:E; [destruct H1|]. cbn [guard bind List.length Nat.eqb negb].
    apply guard_iff. cbn [forallb]. rewrite Bool.andb_true_r. apply existsb_exists. exists x. split; [exact H1|]. apply bytes_eqb_iff. congruence.
Qed.
Lemma pos_iff v c l : find_right_cert_pos v (c :: l) = Ok (Some O) <-> v c = Ok tt.
Proof.
  cbn [find_right_cert_pos]. destruct (v c) as [[]|e]; [tauto|]. split; [|discriminate]. intros H. exfalso.
  destruct e; try discriminate H; apply bind_inv in H; destruct H as ([p|] & _ & H); discriminate H.
Qed.
Lemma chain_iff L certs data s h dir os : certs <> [] ->
  (check_chain L certs data s h dir os = Ok tt <->
   chain_trusted L certs dir os
   /\ (~ (exists x, In x certs /\ pq_cert L x) -> forall c, hd_error certs = Some c -> l_verify L c data s h = Ok tt)).
Proof.
  intros Hn. destruct certs as [|f r]; [contradiction|]. unfold check_chain, chain_trusted. split.
  - intros H. bd H as [], B. apply anchor_iff in B. destruct B as (x & B1 & B2). split; [split|].
    + exists f, r, x. repeat split; assumption.
    + destruct (hybrid_chain L (f :: r)) eqn:E.
      * left. split; [apply hybrid_iff, E|]. bd H as ch, C. apply guard_iff, same_certs_iff in H. exists f, r, ch. repeat split; assumption.
      * right. split.
        { intros c Hc Hp. assert (hybrid_chain L (f :: r) = true) by (apply hybrid_iff; exists c; split; assumption). congruence. }
        bd H as [], C. exact C.
    + intros Hy c Hc. injection Hc as <-. destruct (hybrid_chain L (f :: r)) eqn:E; [elim Hy; apply hybrid_iff, E|].
      bd H as u, C. bd H as p, D. destruct p as [[|]|]; try discriminate. apply pos_iff in D. exact D.
  - intros (((f' & r' & x & E & H1 & H2) & H3) & H4). injection E as <- <-.
    assert (certificates_are_trustanchors [last (f :: r) f] (Some dir) os true = Ok tt) as -> by (apply anchor_iff; exists x; split; assumption).
    cbn [bind]. destruct H3 as [[Hy (f' & r' & ch & E & H5 & H6)]|[Hy H5]].
    + injection E as <- <-. apply hybrid_iff in Hy. rewrite Hy, H5. cbn [bind]. apply guard_iff, same_certs_iff, H6.
    + assert (hybrid_chain L (f :: r) = false) as ->.
      { apply Bool.not_true_is_false. intros C. apply hybrid_iff in C. destruct C as (c & C1 & C2). exact (Hy c C1 C2). }
      rewrite H5. cbn [bind]. assert (l_verify L f data s h = Ok tt) as Hv.
      { apply H4; [|reflexivity]. intros (c & C1 & C2). exact (Hy c C1 C2). }
      apply (pos_iff (fun c => l_verify L c data s h) f r) in Hv. rewrite Hv. reflexivity.
Qed.
Lemma usage_iff L c : validate_cmp_extended_key_usage (l_usages L c) "cmKGA" (VInt 2) = Ok tt <-> kga_usage L c.
Proof.
  unfold validate_cmp_extended_key_usage, kga_usage. change (strictness_get (VInt 2)) with (Ok STRICT). cbn [bind].
  destruct (k_eku (l_usages L c)) as [l|]; [|split; [discriminate|intros (l & H & _); discriminate]].
  change (expected_eku "cmKGA") with (Ok [CM_KGA]). cbn [bind].
  assert (filter (fun o => mem o [CM_KGA]) l = filter (bytes_eqb CM_KGA) l) as ->.
  { apply filter_ext. intros o. unfold mem. cbn [existsb]. rewrite Bool.orb_false_r.
    destruct (bytes_eqb CM_KGA o) eqn:E; [apply bytes_eqb_iff in E; subst o; apply bytes_eqb_iff; reflexivity|].
    destruct (bytes_eqb o CM_KGA) eqn:F; [apply bytes_eqb_iff in F; subst o; discriminate|reflexivity]. }
  split.
  - intros H. bd H as [], B. exists l. split; [reflexivity|]. apply Nat.eqb_eq in B. symmetry. exact B.
  - intros (l' & E & H). injection E as <-. rewrite H. reflexivity.
Qed.
Lemma algs_iff L sig dig outer : check_algs L sig dig outer = Ok tt <->
  l_algenc L outer = l_algenc L dig /\ exists h, hash_id (g_oid dig) h /\ In (g_oid sig, h) sig_hashes.
Proof.
  unfold check_algs. split.
  - intros H. bd H as [], B. apply bytes_eqb_iff in B. apply bind_inv in H. destruct H as ([] & C & H). bd H as d, D. bd H as s, F. apply guard_iff in H.
    destruct d as [d|]; [|discriminate]. apply String.eqb_eq in H. subst d. split; [exact B|]. exists s.
    assert (Hs : In (g_oid sig, s) sig_hashes) by (apply sig_hash_iff; split; assumption).
    split; [|exact Hs]. apply get_hash_iff; [exact (sig_hash_six _ _ Hs)|].
    destruct (get_hash_from_oid (g_oid dig) false) as [x|[]]; try discriminate; exact D.
  - intros (H1 & h & H2 & H3). rewrite H1. assert (bytes_eqb (l_algenc L dig) (l_algenc L dig) = true) as -> by (apply bytes_eqb_iff; reflexivity).
    cbn [guard bind]. pose proof (proj2 (sig_hash_iff _ _) H3) as [H4 H5]. rewrite H4. cbn [bind].
    apply get_hash_iff in H2; [|exact (sig_hash_six _ _ H3)]. rewrite H2. cbn [bind]. rewrite H5. cbn [bind]. rewrite String.eqb_refl. reflexivity.
Qed.
Lemma signers_iff L l outer c n md a s : check_signers L l outer c n = Ok (md, a, s) <->
  List.length l = n /\ exists i more h, l = i :: more /\ s_version i = 3 /\ (exists x, s_sid i = SidSki x)
    /\ attributes_give L n (s_attrs i) md /\ l_algenc L outer = l_algenc L (s_digest i) /\ hash_id (g_oid (s_digest i)) h
    /\ In (g_oid (s_alg i), h) sig_hashes /\ fits (s_alg i) (l_spki L c) /\ s_sig i = Some s /\ a = s_alg i.
Proof.
  unfold check_signers. split.
  - intros H. bd H as [], B. apply Nat.eqb_eq in B. split; [exact B|]. destruct l as [|i more]; [discriminate|].
    bd H as [], C. apply Z.eqb_eq in C. bd H as [], D. bd H as md', F. apply attrs_iff in F. bd H as [], G. apply algs_iff in G.
    bd H as f, I. bd H as [], J. subst f. apply alg_fits_iff in I. destruct (s_sig i) as [s'|] eqn:K; [|discriminate].
    injection H as -> <- <-. destruct G as (G1 & h & G2 & G3). exists i, more, h.
    repeat (split; [assumption || reflexivity|]). split; [destruct (s_sid i); [eexists; reflexivity|discriminate]|].
    repeat (split; [assumption|]). reflexivity.
  - intros (H1 & i & more & h & -> & H2 & (x & H3) & H4 & H5 & H6 & H7 & H8 & H9 & ->). apply Nat.eqb_eq in H1. rewrite H1, H2, H3.
    cbn [guard bind Z.eqb Pos.eqb]. apply attrs_iff in H4. rewrite H4. cbn [bind].
    assert (check_algs L (s_alg i) (s_digest i) outer = Ok tt) as -> by (apply algs_iff; split; [exact H5|exists h; split; assumption]).
    cbn [bind]. apply alg_fits_iff in H8. rewrite H8. cbn [guard bind]. rewrite H9. reflexivity.
Qed.
Lemma sig_hash_fun o h h' : In (o, h) sig_hashes -> In (o, h') sig_hashes -> h = h'.
Proof. rewrite !(lookup_keys _ sig_hashes o _ sig_nodup). congruence. Qed.
Lemma signature_iff L md a s content data c h : In (g_oid a, h) sig_hashes ->
  (check_signature L md a s content data c = Ok tt <-> md = l_hash L h content /\ l_verify L c data s (Some h) = Ok tt).
Proof.
  intros Hs. unfold check_signature, digest_for_cmp, compute_hash. rewrite (sig_stateless _ _ Hs).
  destruct (proj2 (sig_hash_iff _ _) Hs) as [_ ->]. cbn [bind]. rewrite (six_instance h (sig_hash_six _ _ Hs)). cbn [bind]. split.
  - intros H. bd H as [], B. apply bytes_eqb_iff in B. split; assumption.
  - intros [-> H]. assert (bytes_eqb (l_hash L h content) (l_hash L h content) = true) as -> by (apply bytes_eqb_iff; reflexivity). exact H.
Qed.
Lemma ed_not_pq o : In o eddsa -> ~ In o (map fst pq_keys).
Proof.
  intros H1 H2. apply (In_class o CEd) in H1; [|discriminate]. apply (In_class o CPq) in H2; [|discriminate]. congruence.
Qed.
(** A signature made by a post-quantum algorithm needs a post-quantum key. *)
Lemma fits_pq_key p k : fits p k -> In (g_oid p) (map fst pq_keys) -> In (g_oid k) (map fst pq_keys).
Proof.
  intros H Hp. apply (In_class _ CPq) in Hp; [|discriminate]. apply fitsb_iff in H. unfold fitsb in H. rewrite Hp in H.
  destruct (class (g_oid k)) eqn:K; try discriminate H; try (apply skb_iff in H; [|exact pq_nodup]; destruct H as (x & _ & H); exact (in_map fst _ _ H)).
Qed.

Lemma validate_iff L d n i dir os save k : validate_signed L d n i dir os save = Ok k <-> accepted L d n i dir os save k.
Proof.
  unfold validate_signed, accepted. split.
  - intros H. bd H as [], B. apply Z.eqb_eq in B. bd H as [], C. apply Nat.eqb_eq in C.
    destruct (nth_error (d_digests d) i) as [outer|] eqn:D; [|discriminate]. bd H as [], F. apply String.eqb_eq in F.
    bd H as content, G. bd H as pkg, I. bd H as k', J. bd H as certs, K. destruct certs as [|c certs]; [discriminate|].
    bd H as [[md a] s], M. bd H as [], N. bd H as h, P. bd H as [], Q. bd H as [], R. injection H as ->.
    apply signers_iff in M. destruct M as (M0 & info & more & hh & M1 & M2 & M3 & M4 & M5 & M6 & M7 & M8 & M9 & ->).
    apply (signature_iff _ _ _ _ _ _ _ hh M7) in N. destruct N as [N1 N2].
    apply chain_iff in Q; [|discriminate]. destruct Q as [Q1 Q2].
    split; [exact B|]. split; [exact C|]. split; [exact M0|].
    exists outer, content, (c :: certs), c, info, more, s, hh, md. split; [reflexivity|]. split.
    { destruct (d_encap d) as [t x]. cbn [n_type n_content] in *. subst t x. reflexivity. }
    split.
    { destruct (l_pkgdec L content) as [[p [|]]|] eqn:S1; try discriminate. injection I as ->. apply package_iff in J.
      destruct J as (o & J). exists pkg, o. split; [exact S1|exact J]. }
    split; [apply ordered_iff; exact K|]. repeat (split; [assumption || reflexivity|]). split; [|apply usage_iff; exact R].
    intros He Hn. destruct (second_hash _ _ M7) as [[_ S1]|[S1 _]]; [contradiction|]. rewrite S1 in P. injection P as <-.
    exact (Q2 Hn c eq_refl).
  - intros (H1 & H2 & H3 & outer & content & certs & c & info & more & s & h & md & H4 & H5 & (pkg & o & H6 & H6') & H7 & H8 & H9 & H10 & H11
            & H12 & H13 & H14 & H15 & H16 & H17 & H18 & H19 & H20 & H21 & H22).
    rewrite H1. cbn [guard bind Z.eqb Pos.eqb]. apply Nat.eqb_eq in H2. rewrite H2. cbn [guard bind]. rewrite H4, H5.
    cbn [n_type n_content guard bind]. change (String.eqb "id_ct_KP_aKeyPackage" KEY_PACKAGE) with true. cbn [guard bind].
    rewrite H6. cbn [bind]. assert (check_package L pkg n i save = Ok k) as -> by (apply package_iff; exists o; exact H6').
    cbn [bind]. apply ordered_iff in H7. rewrite H7. cbn [bind]. destruct certs as [|c' certs]; [discriminate|]. injection H8 as ->.
    assert (check_signers L (d_signers d) outer c n = Ok (md, s_alg info, s)) as ->.
    { apply signers_iff. split; [exact H3|]. exists info, more, h. repeat (split; [assumption|]). reflexivity. }
    cbn [bind]. rewrite H5 in H19. assert (check_signature L md (s_alg info) s content
      (l_encapenc L {| n_type := "id_ct_KP_aKeyPackage"; n_content := Some content |}) c = Ok tt) as -> by (apply (signature_iff _ _ _ _ _ _ _ h H16); split; assumption).
    cbn [bind].
    assert (exists h', get_hash_from_oid (g_oid (s_alg info)) true = Ok h' /\
      (~ (exists x, In x (c :: certs) /\ pq_cert L x) ->
         l_verify L c (l_encapenc L {| n_type := "id_ct_KP_aKeyPackage"; n_content := Some content |}) s h' = Ok tt)) as (h' & -> & Hv).
    { destruct (second_hash _ _ H16) as [[-> _]|[-> [He|Hp]]].
      - exists (Some h). split; [reflexivity|]. intros _. exact H19.
      - exists None. split; [reflexivity|]. rewrite H5 in H21. exact (H21 He).
      - exists None. split; [reflexivity|]. intros Hn. elim Hn. exists c. split; [left; reflexivity|].
        unfold pq_cert. apply in_app_iff. left. exact (fits_pq_key _ _ H17 Hp). }
    cbn [bind]. assert (check_chain L (c :: certs) (l_encapenc L {| n_type := "id_ct_KP_aKeyPackage"; n_content := Some content |}) s h' dir os = Ok tt) as ->.
    { apply chain_iff; [discriminate|]. split; [exact H20|]. intros Hn c' [= <-]. exact (Hv Hn). }
    cbn [bind]. apply usage_iff in H22. rewrite H22. reflexivity.
Qed.
