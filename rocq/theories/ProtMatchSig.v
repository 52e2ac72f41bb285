(** Proofs about consistent signature protection and about changed protection (C96, C97). *)
From Coq Require Import String Ascii Lia.
From Verif Require Import Prelude PreludeFacts PyStr CompLoadModel HdrModel ProtTab ProtModel ProtSpec ProtMac ProtMacMsg ProtSig ProtKind.
From Verif Require Import ProtMatchModel ProtMatchSpec ProtMatchProofs.
Open Scope string_scope.
Open Scope Z_scope.
Local Notation length := List.length.

(** ** Modified protection *)
Lemma mac_value_fun : forall L fresh a pw data v v', In (a_oid a) mac_oids -> mac_value L fresh a pw data v ->
  mac_value L fresh a pw data v' -> v = v'.
Proof.
  intros L fresh a pw data v v' I H H'. pose proof (mac_oid_not_dh _ I) as ND.
  apply (symmetric_exact L (fun _ => fresh) _ _ _ _ ND) in H. apply (symmetric_exact L (fun _ => fresh) _ _ _ _ ND) in H'. congruence.
Qed.
Theorem modified_mac : forall L rnd r m a v w pw m', mac_message m a v -> with_password w pw ->
  v_lw w = false -> verify_pkimessage_protection L r m w = Ok tt -> modify_pkimessage_protection rnd m = Ok m' ->
  verify_pkimessage_protection L r m' w = Err EBadMessageCheck.
Proof.
  intros L rnd r m a v w pw m' M P LW V H. unfold modify_pkimessage_protection in H.
  pose proof M as (A & I & E). rewrite E in H. apply bind_inv in H as (v' & N & H). inversion H; subst m'; clear H.
  destruct (mac_needs _ _ _ _ V) as (b & u & B & _ & Q). assert (b = a) by congruence. subst b.
  destruct (Q I) as (pw' & data & P' & D). assert (pw' = pw) by (destruct P as (x & X1 & X2), P' as (y & Y1 & Y2); congruence). subst pw'.
  apply (mac_decides _ _ _ _ _ _ _ _ M P D LW) in V. apply manip_neq in N.
  assert (M' : mac_message (set_prot m v') a v') by (repeat split; assumption).
  assert (D' : part_of L (set_prot m v') data) by exact D.
  apply (proj2 (mac_decides L r _ w a v' pw data M' P D' LW) v V). congruence.
Qed.
Theorem modify_exact : forall rnd m m', modify_pkimessage_protection rnd m = Ok m' <->
  m_header m' = m_header m /\ m_body m' = m_body m /\ m_certs m' = m_certs m /\
  match m_prot m with
  | None => m_prot m' = Some (rnd 32)
  | Some v => exists x r, v = x :: r /\ m_prot m' = Some ((if x =? 0 then 1 else 0) :: r)
  end.
Proof.
  intros rnd m [h b p c]. unfold modify_pkimessage_protection. destruct (m_prot m) as [[|x r]|]; cbn [manipulate_first_byte bind m_header m_body m_certs m_prot].
  - split; [discriminate|]. intros (_ & _ & _ & x & r & E & _). discriminate E.
  - split.
    + intro H. inversion H; subst. do 3 (split; [reflexivity|]). eauto.
    + intros (-> & -> & -> & y & s & E & ->). inversion E; subst. destruct m; reflexivity.
  - split; [intro H; inversion H; subst; auto|]. intros (-> & -> & -> & ->). reflexivity.
Qed.

(** ** Signatures *)
Lemma absent_exact : forall p, is_absent p = true <-> p = PAbsent.
Proof. intros []; cbn; split; congruence. Qed.
Lemma prot_alg_exact : forall m a, prot_alg m = Ok a <-> alg_is m a.
Proof. intros m a. unfold prot_alg, alg_is. destruct (h_alg (m_header m)); split; congruence. Qed.
Lemma same_oid_exact : forall a m, same_oid a m = Ok tt <-> opt_msg (fun m => exists b, alg_is m b /\ a_oid b = a_oid a) m.
Proof.
  intros a [m|]; cbn [same_oid opt_msg]; [|tauto]. split.
  - intro H. apply bind_inv in H as (b & B & G). apply guard_true in G. apply String.eqb_eq in G. exists b. split; [now apply prot_alg_exact|auto].
  - intros (b & B & E). apply prot_alg_exact in B. rewrite B. cbn [bind]. rewrite E, String.eqb_refl. reflexivity.
Qed.
Lemma consistent_exact : forall r c p, check_signature_alg_is_consistent r c p = Ok tt <->
  exists a, alg_is r a /\ a_params a = PAbsent /\ opt_msg (bare_alg (a_oid a)) c /\ opt_msg (bare_alg (a_oid a)) p.
Proof.
  intros r c p. unfold check_signature_alg_is_consistent.
  assert (HP : forall m, has_params m = Ok false <-> opt_msg (fun m => exists b, alg_is m b /\ a_params b = PAbsent) m).
  { intros [m|]; cbn [has_params opt_msg]; [|tauto]. split.
    - intro H. apply bind_inv in H as (b & B & G). assert (X : negb (is_absent (a_params b)) = false) by congruence.
      exists b. split; [now apply prot_alg_exact|]. apply negb_false_iff in X. now apply absent_exact.
    - intros (b & B & E). apply prot_alg_exact in B. rewrite B. cbn [bind]. now rewrite E. }
  assert (BA : forall o m, opt_msg (bare_alg o) m <->
    opt_msg (fun m => exists b, alg_is m b /\ a_oid b = o) m /\ opt_msg (fun m => exists b, alg_is m b /\ a_params b = PAbsent) m).
  { intros o [m|]; cbn [opt_msg]; [|tauto]. unfold bare_alg, alg_is. split.
    - intros (b & A & B & C). split; exists b; auto.
    - intros ((b & A & B) & (b' & A' & C)). assert (b' = b) by congruence. subst. eauto. }
  split.
  - intro H. apply bind_inv in H as (a & A & H). apply bind_inv in H as ([] & S1 & H). apply bind_inv in H as ([] & S2 & H).
    apply bind_inv in H as (x & X & H). apply bind_inv in H as (y & Y & H). apply guard_true in H.
    apply negb_true_iff in H. apply orb_false_iff in H as (H & ->). apply orb_false_iff in H as (H & ->). apply negb_false_iff in H.
    exists a. split; [now apply prot_alg_exact|]. split; [now apply absent_exact|]. rewrite !BA.
    apply same_oid_exact in S1, S2. apply HP in X, Y. auto.
  - intros (a & A & P & C1 & C2). apply BA in C1 as (S1 & X), C2 as (S2 & Y). apply same_oid_exact in S1, S2. apply HP in X, Y.
    apply prot_alg_exact in A. rewrite A. cbn [bind]. rewrite S1, S2, X, Y. cbn [bind]. rewrite P. reflexivity.
Qed.

Definition none_hash (o : oid) : bool := match get_hash_from_oid o false with Ok None => true | _ => false end.
Lemma plain_back : forall o, In o plain_oids -> get_hash_from_oid o false = Ok None.
Proof.
  intros o H. assert (A : forallb none_hash plain_oids = true) by (vm_compute; reflexivity).
  pose proof (proj1 (forallb_forall _ _) A _ H) as C. unfold none_hash in C. destruct (get_hash_from_oid o false) as [[x|]|]; congruence.
Qed.
Lemma plain_fwd : forall o, get_hash_from_oid o false = Ok None -> In o plain_oids.
Proof.
  intros o H. assert (D : In o ("id_Ed25519" :: "id_Ed448" :: List.map fst PQ_OID_2_NAME)).
  { unfold get_hash_from_oid in H. destruct (str_mem o ["id_Ed25519"; "id_Ed448"]) eqn:E.
    - apply str_mem_In in E. destruct E as [<-|[<-|[]]]; cbn [In]; auto.
    - destruct (lookup o COMPOSITE_SIG_PREHASH_OID_2_HASH); [discriminate|]. destruct (lookup o PQ_SIG_PRE_HASH_OID_2_NAME); [discriminate|].
      destruct (has o PQ_OID_2_NAME) eqn:E2; [apply has_In in E2; right; right; exact E2|]. destruct (lookup o OID_HASH_MAP); discriminate. }
  assert (A : forallb (fun o => negb (none_hash o) || str_mem o plain_oids) ("id_Ed25519" :: "id_Ed448" :: List.map fst PQ_OID_2_NAME) = true)
    by (vm_compute; reflexivity).
  pose proof (proj1 (forallb_forall _ _) A _ D) as C. unfold none_hash in C. rewrite H in C. now apply str_mem_In.
Qed.
Lemma sig_hash_exact : forall o h,
  (let! hn := get_hash_from_oid o false in match hn with None => Ok None | Some n => let! x := part1 n in Ok (Some x) end) = Ok h <-> sig_hash o h.
Proof.
  intros o h. split.
  - intro H. apply bind_inv in H as ([n|] & G & H).
    + apply bind_inv in H as (x & X & H). assert (h = Some x) by congruence. subst. constructor. exact (proj2 (proj2 (prf_fwd _ _ _ G X))).
    + assert (h = None) by congruence. subst. constructor. now apply plain_fwd.
  - intro H. destruct H as [o h H|o H].
    + destruct (prf_back _ _ H) as (n & -> & P). cbn [bind]. now rewrite P.
    + now rewrite (plain_back _ H).
Qed.
Lemma sig_hash_inst : forall o h, sig_hash o (Some h) -> hash_name_to_instance h = Ok h.
Proof.
  intros o h H. inversion H as [o' h' I|]; subst. destruct (prf_back _ _ I) as (n & G & P). exact (proj1 (proj2 (prf_fwd _ _ _ G P))).
Qed.
Lemma check_hash_in : forall n h, check_hash_alg n (Some h) false = Some h <-> In (n, h) pq_prehash.
Proof.
  intros n h. split; [apply hash_alg_pq|]. intro H. exact (proj1 (proj2 (proj2 (pre_ok _ _ H)))).
Qed.
Lemma check_hash_out : forall n h, ~ In (n, h) pq_prehash -> check_hash_alg n (Some h) false = None.
Proof.
  intros n h H. destruct (check_hash_alg n (Some h) false) as [x|] eqn:E; [|reflexivity]. exfalso. apply H. apply check_hash_in.
  rewrite E. clear H. unfold check_hash_alg in E. destruct (str_mem n ML_DSA_NAMES).
  - destruct (String.eqb_spec h "sha512"); congruence.
  - destruct (str_mem n SLH_DSA_NAMES); [|discriminate]. destruct (str_mem _ _); congruence.
Qed.
Lemma prod_eq_dec : forall A B, (forall x y : A, {x = y} + {x <> y}) -> (forall x y : B, {x = y} + {x <> y}) ->
  forall p q : A * B, {p = q} + {p <> q}.
Proof. intros A B F G [a b] [c d]. destruct (F a c); [destruct (G b d); [left|right]|right]; congruence. Defined.
Lemma cert_scheme_exact : forall o h k s, sig_hash o h ->
  (is_sign_kind k = true /\ verify_scheme k h = Ok s <-> cert_scheme h k s).
Proof.
  intros o h k s H. assert (OI : opt_instance h = Ok h).
  { destruct h as [h|]; [|reflexivity]. unfold opt_instance. now rewrite (sig_hash_inst _ _ H). }
  split.
  - intros (K & V). destruct k; try discriminate K; cbn [verify_scheme] in V; try rewrite OI in V; cbn [bind] in V;
      try (destruct h as [h|]; [|discriminate V]); try (inversion V; subst; constructor).
    + assert (s = SPq (check_hash_alg name h false)) by congruence. subst s. destruct h as [h|]; [|constructor; intros h' E'; discriminate E'].
      destruct (in_dec (prod_eq_dec _ _ string_dec string_dec) (name, h) pq_prehash) as [I|N].
      * rewrite (proj2 (check_hash_in _ _) I). now constructor.
      * rewrite (check_hash_out _ _ N). constructor. intros h' E'. inversion E'; subst. exact N.
  - intro C. destruct C; (split; [reflexivity|]); cbn [verify_scheme]; try rewrite OI; cbn [bind]; try reflexivity.
    + apply check_hash_in in H0. now rewrite H0.
    + destruct x as [h|]; [|reflexivity]. rewrite check_hash_out by auto. reflexivity.
Qed.
Lemma with_cert_exact : forall L c m h o, sig_hash o h -> (verify_with_cert L c m h = Ok tt <-> signed_by L c h m).
Proof.
  intros L c m h o SH. unfold verify_with_cert, signed_by. split.
  - intro H. apply bind_inv in H as (data & D & H). apply bind_inv in H as (v & V & H). apply bind_inv in H as (k & K & H).
    apply bind_inv in H as ([] & G & H). apply guard_true in G. unfold verify_signature in H.
    destruct (verify_scheme (k_kind k) h) as [s|e] eqn:E; cbn [bind] in H; [|destruct e; discriminate H].
    exists data, v, k, s. split; [now apply protected_part_ok|]. split; [destruct (m_prot m); congruence|]. split; [exact K|].
    split; [now apply (cert_scheme_exact _ _ _ _ SH)|]. destruct (l_verify L s k v data) as [[]|e]; [reflexivity|]. destruct e; discriminate H.
  - intros (data & v & k & s & D & V & K & C & E). apply protected_part_ok in D. rewrite D, V, K. cbn [bind].
    apply (cert_scheme_exact _ _ _ _ SH) in C as (S1 & S2). rewrite S1. cbn [guard bind]. unfold verify_signature. rewrite S2. cbn [bind]. now rewrite E.
Qed.
Lemma verify_other_exact : forall L c m h o x, sig_hash o h -> (verify_other L c m h = Ok x <->
  opt_msg (signed_by L c h) m /\ x = match m with None => None | Some m => match m_certs m with [] => None | l => Some l end end).
Proof.
  intros L c [m|] h o x SH; cbn [verify_other opt_msg].
  - split.
    + intro H. apply bind_inv in H as ([] & V & H). split; [now apply (with_cert_exact _ _ _ _ _ SH)|congruence].
    + intros (V & ->). apply (with_cert_exact _ _ _ _ _ SH) in V. now rewrite V.
  - split; [intro H; split; [exact I|congruence]|intros (_ & ->); reflexivity].
Qed.
Definition chain_part (chain : cert -> list cert -> result (list cert)) (ee : cert) (l : list cert) (m : option msg) : Prop :=
  opt_msg (fun m => m_certs m <> [] -> one_chain chain ee l (m_certs m)) m.
Lemma same_chain_exact : forall chain ee l d m, chain_der chain ee l = Ok d ->
  (same_chain chain ee d (match m with None => None | Some m => match m_certs m with [] => None | l => Some l end end) = Ok tt <->
   chain_part chain ee l m).
Proof.
  intros chain ee l d m E. unfold chain_der in E. apply bind_inv in E as (c1 & C1 & E). assert (d = List.concat (List.map c_der c1)) by congruence. subst d.
  destruct m as [m|]; cbn [same_chain chain_part opt_msg]; [|unfold chain_part; cbn [opt_msg]; tauto]. unfold chain_part. cbn [opt_msg].
  destruct (m_certs m) as [|x r]; cbn [same_chain].
  - split; [intros _ N; now contradiction N|reflexivity].
  - unfold chain_der. split.
    + intros H _. apply bind_inv in H as (d & D & G). apply bind_inv in D as (c2 & C2 & D). apply guard_true in G. apply bytes_eqb_eq in G.
      exists c1, c2. repeat split; auto. congruence.
    + intro H. destruct (H ltac:(discriminate)) as (a & b & A & B & Q). rewrite B. cbn [bind]. assert (a = c1) by congruence. subst a.
      rewrite Q, bytes_eqb_refl. reflexivity.
Qed.
Theorem sig_match_exact : forall L chain r c p, signature_protection_must_match L chain r c p = Ok tt <->
  exists ee rest a h, m_certs r = ee :: rest /\ (c <> None \/ p <> None) /\
    alg_is r a /\ a_params a = PAbsent /\ opt_msg (bare_alg (a_oid a)) c /\ opt_msg (bare_alg (a_oid a)) p /\
    sig_hash (a_oid a) h /\ signed_by L ee h r /\ opt_msg (signed_by L ee h) c /\ opt_msg (signed_by L ee h) p /\
    (exists ch, chain ee (m_certs r) = Ok ch) /\
    opt_msg (fun m => m_certs m <> [] -> one_chain chain ee (m_certs r) (m_certs m)) c /\
    opt_msg (fun m => m_certs m <> [] -> one_chain chain ee (m_certs r) (m_certs m)) p.
Proof.
  intros L chain r c p. unfold signature_protection_must_match. destruct (m_certs r) as [|ee rest] eqn:ER.
  { split; [discriminate|]. intros (ee & rest & a & h & E & _). discriminate E. }
  split.
  - intro H. apply bind_inv in H as ([] & G & H). apply guard_true in G. apply bind_inv in H as ([] & K & H).
    apply consistent_exact in K as (a & A & P & K1 & K2). pose proof (proj2 (prot_alg_exact _ _) A) as A'. rewrite A' in H. cbn [bind] in H.
    apply bind_inv in H as (hn & GH & H). apply bind_inv in H as (h & PH & H).
    assert (SH : sig_hash (a_oid a) h) by (apply sig_hash_exact; rewrite GH; exact PH).
    apply bind_inv in H as ([] & V & H). apply bind_inv in H as (cc & V1 & H). apply bind_inv in H as (pc & V2 & H).
    apply (with_cert_exact _ _ _ _ _ SH) in V. apply (verify_other_exact _ _ _ _ _ _ SH) in V1 as (V1 & ->).
    apply (verify_other_exact _ _ _ _ _ _ SH) in V2 as (V2 & ->).
    unfold check_is_same_chain in H. apply bind_inv in H as (d & D & H). apply bind_inv in H as ([] & S1 & H).
    apply (same_chain_exact _ _ _ _ _ D) in S1. apply (same_chain_exact _ _ _ _ _ D) in H.
    exists ee, rest, a, h. split; [reflexivity|]. split; [destruct c; [left; discriminate|destruct p; [right; discriminate|discriminate G]]|].
    repeat (split; [assumption|]). split; [|split; assumption]. unfold chain_der in D. apply bind_inv in D as (ch & CH & _). eauto.
  - intros (ee' & rest' & a & h & E & O & A & P & K1 & K2 & SH & V & V1 & V2 & (ch & CH) & S1 & S2).
    assert (ee' = ee) by congruence. subst ee'.
    assert (G : match c, p with None, None => false | _, _ => true end = true) by (destruct c, p; auto; destruct O as [O|O]; now contradiction O).
    rewrite G. cbn [guard bind]. rewrite (proj2 (consistent_exact r c p)) by eauto. cbn [bind].
    rewrite (proj2 (prot_alg_exact _ _) A). cbn [bind]. pose proof SH as SH'. apply sig_hash_exact in SH'.
    apply bind_inv in SH' as (hn & GH & PH). rewrite GH. cbn [bind]. rewrite PH. cbn [bind].
    rewrite (proj2 (with_cert_exact _ _ _ _ _ SH) V). cbn [bind].
    rewrite (proj2 (verify_other_exact L ee c h _ _ SH) (conj V1 eq_refl)). cbn [bind].
    rewrite (proj2 (verify_other_exact L ee p h _ _ SH) (conj V2 eq_refl)). cbn [bind].
    assert (D : chain_der chain ee (ee :: rest) = Ok (List.concat (List.map c_der ch))) by (unfold chain_der; now rewrite CH).
    unfold check_is_same_chain. rewrite D. cbn [bind]. apply (same_chain_exact _ _ _ _ _ D) in S1, S2. now rewrite S1, S2.
Qed.
