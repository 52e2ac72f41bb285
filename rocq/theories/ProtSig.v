(** Proofs about signature protection (properties C91, C92). *)
From Coq Require Import String Ascii Lia.
From Verif Require Import Prelude PreludeFacts PyStr PyStrProofs CompLoadModel HdrModel ProtTab ProtModel ProtSpec ProtMac ProtMacMsg.
Open Scope string_scope.
Open Scope Z_scope.
Local Notation length := List.length.

(** ** Tables *)

Definition chk_rsa (p : oid * string) : bool :=
  if startswith "rsa-" (snd p)
  then match lookup (fst p) rsa_hashes with Some h => String.eqb ("rsa-" ++ h) (snd p) | None => false end else true.
Lemma trad_rsa : forall h o, rlookup ("rsa-" ++ h) TRAD_SIG_OID_2_NAME = Some o -> In (o, h) rsa_hashes.
Proof.
  intros h o H. apply rlookup_In in H. assert (A : forallb chk_rsa TRAD_SIG_OID_2_NAME = true) by (vm_compute; reflexivity).
  pose proof (proj1 (forallb_forall _ _) A _ H) as C. unfold chk_rsa, startswith in C. cbn [fst snd] in C.
  rewrite prefix_app in C. destruct (lookup o rsa_hashes) as [x|] eqn:E; [|discriminate C].
  apply String.eqb_eq in C. apply app_inj in C. subst x. now apply lookup_In.
Qed.
Definition chk_ec (p : oid * string) : bool :=
  if startswith "ecdsa-" (snd p)
  then match lookup (fst p) ecdsa_hashes with Some h => String.eqb ("ecdsa-" ++ h) (snd p) | None => false end else true.
Lemma trad_ec : forall h o, rlookup ("ecdsa-" ++ h) TRAD_SIG_OID_2_NAME = Some o -> In (o, h) ecdsa_hashes.
Proof.
  intros h o H. apply rlookup_In in H. assert (A : forallb chk_ec TRAD_SIG_OID_2_NAME = true) by (vm_compute; reflexivity).
  pose proof (proj1 (forallb_forall _ _) A _ H) as C. unfold chk_ec, startswith in C. cbn [fst snd] in C.
  rewrite prefix_app in C. destruct (lookup o ecdsa_hashes) as [x|] eqn:E; [|discriminate C].
  apply String.eqb_eq in C. apply app_inj in C. subst x. now apply lookup_In.
Qed.
(** What the code computes for an RSA or ECDSA identifier. *)
Definition res_str_eqb (r : result (option string)) (h : string) : bool :=
  match r with Ok (Some x) => String.eqb x h | _ => false end.
Definition trad_facts (o : oid) (h : string) : Prop :=
  get_hash_from_oid o true = Ok (Some h) /\ hash_name_to_instance h = Ok h /\
  (exists n, get_hash_from_oid o false = Ok (Some n) /\ last_part n = h) /\
  lookup o COMPOSITE_SIG_OID_TO_NAME = None /\ has o TRAD_SIG_OID_2_NAME = true /\ has o PQ_OID_2_NAME = false /\
  has o SYMMETRIC_PROT_ALGO = false.
Definition chk_trad (p : oid * string) : bool :=
  let (o, h) := p in
  res_str_eqb (get_hash_from_oid o true) h
  && match hash_name_to_instance h with Ok x => String.eqb x h | _ => false end
  && match get_hash_from_oid o false with Ok (Some n) => String.eqb (last_part n) h | _ => false end
  && negb (has o COMPOSITE_SIG_OID_TO_NAME) && has o TRAD_SIG_OID_2_NAME && negb (has o PQ_OID_2_NAME)
  && negb (has o SYMMETRIC_PROT_ALGO).
Lemma chk_trad_facts : forall o h, chk_trad (o, h) = true -> trad_facts o h.
Proof.
  intros o h C. unfold chk_trad in C.
  apply andb_prop in C as (C & C7). apply andb_prop in C as (C & C6). apply andb_prop in C as (C & C5).
  apply andb_prop in C as (C & C4). apply andb_prop in C as (C & C3). apply andb_prop in C as (C1 & C2).
  apply negb_true_iff in C4, C6, C7. unfold trad_facts. repeat split; auto.
  - unfold res_str_eqb in C1. destruct (get_hash_from_oid o true) as [[x|]|]; try discriminate C1.
    apply String.eqb_eq in C1. now subst.
  - destruct (hash_name_to_instance h) as [x|]; [|discriminate C2]. apply String.eqb_eq in C2. now subst.
  - destruct (get_hash_from_oid o false) as [[x|]|]; try discriminate C3. apply String.eqb_eq in C3. eauto.
  - unfold has in C4. destruct (lookup o COMPOSITE_SIG_OID_TO_NAME); [discriminate|reflexivity].
Qed.
Lemma rsa_facts : forall o h, In (o, h) rsa_hashes -> trad_facts o h.
Proof.
  intros o h H. apply chk_trad_facts.
  assert (A : forallb chk_trad rsa_hashes = true) by (vm_compute; reflexivity). exact (proj1 (forallb_forall _ _) A _ H).
Qed.
Lemma ec_facts : forall o h, In (o, h) ecdsa_hashes -> trad_facts o h.
Proof.
  intros o h H. apply chk_trad_facts.
  assert (A : forallb chk_trad ecdsa_hashes = true) by (vm_compute; reflexivity). exact (proj1 (forallb_forall _ _) A _ H).
Qed.
Lemma rsa_not_pss : forall o h, In (o, h) rsa_hashes -> has o RSASSA_PSS_OID_2_NAME = false.
Proof. intros o h H. cbv [rsa_hashes In] in H. enum H; reflexivity. Qed.
Lemma ec_not_pss : forall o h, In (o, h) ecdsa_hashes -> has o RSASSA_PSS_OID_2_NAME = false.
Proof. intros o h H. cbv [ecdsa_hashes In] in H. enum H; reflexivity. Qed.
Lemma rsa_back : forall o h, In (o, h) rsa_hashes -> rlookup ("rsa-" ++ h) TRAD_SIG_OID_2_NAME = Some o.
Proof. intros o h H. cbv [rsa_hashes In] in H. enum H; reflexivity. Qed.
Lemma ec_back : forall o h, In (o, h) ecdsa_hashes -> rlookup ("ecdsa-" ++ h) TRAD_SIG_OID_2_NAME = Some o.
Proof. intros o h H. cbv [ecdsa_hashes In] in H. enum H; reflexivity. Qed.

(** ** Parameters *)

Lemma is_null_spec : forall p, is_parameters_null p = true <-> is_null p.
Proof.
  intro p; unfold is_null; split; intro H.
  - destruct p; cbn [is_parameters_null] in H; try discriminate; auto; apply bytes_eqb_eq in H; subst; auto.
  - destruct H as [->|[->| ->]]; reflexivity.
Qed.
Lemma guard_err_false : forall b e, guard b e = Ok tt <-> b = true.
Proof. intros [] e; cbn; split; congruence. Qed.
Lemma absent_spec : forall p, is_absent p = true <-> p = PAbsent.
Proof. intros []; cbn; split; congruence. Qed.
Lemma validate_rsa : forall o h p, In (o, h) rsa_hashes -> (validate_sig_alg_id (Alg o p) = Ok tt <-> is_null p).
Proof.
  intros o h p H. rewrite <- is_null_spec, <- (guard_err_false _ EBadSigAlgID).
  cbv [rsa_hashes In] in H. enum H; reflexivity.
Qed.
Lemma validate_ec : forall o h p, In (o, h) ecdsa_hashes -> (validate_sig_alg_id (Alg o p) = Ok tt <-> p = PAbsent).
Proof.
  intros o h p H. rewrite <- absent_spec, <- (guard_err_false _ EBadSigAlgID).
  cbv [ecdsa_hashes In] in H. enum H; reflexivity.
Qed.

(** ** What verification with the algorithm identifier accepts *)

Lemma is_trad : forall n o, match rlookup n TRAD_SIG_OID_2_NAME with None => false | Some x => String.eqb x o end = true <->
  rlookup n TRAD_SIG_OID_2_NAME = Some o.
Proof.
  intros n o. destruct (rlookup n TRAD_SIG_OID_2_NAME) as [x|]; split; try congruence.
  - intro H. apply String.eqb_eq in H. now subst.
  - intro H. inversion H. apply String.eqb_refl.
Qed.

Lemma load_pss : forall L p e ha mgf n,
  load sel_pss (l_dec_pss L) (Some e) p = Ok (ha, mgf, n) <-> seen (l_dec_pss L) p (PPss ha mgf n) (ha, mgf, n).
Proof. seen_tac. Qed.
Lemma load_alg : forall L p e a,
  load sel_alg (l_dec_alg L) (Some e) p = Ok a <-> seen (l_dec_alg L) p (PAlg a) a.
Proof. seen_tac. Qed.

Lemma seen_absent : forall A (dec : bytes -> option (A * bytes)) s x, s <> PAbsent -> seen dec PAbsent s x -> False.
Proof. intros A dec s x N H. destruct H as [H|(b & [H|H] & _)]; congruence. Qed.

(** RSASSA-PSS *)
Lemma pss_exact : forall L k p data sig,
  verify_rsassa_pss_from_alg_id L k data sig (Alg "id_RSASSA_PSS" p) = Ok tt <->
  exists ha mgf ma n h,
    seen (l_dec_pss L) p (PPss ha mgf n) (ha, mgf, n) /\ In (a_oid ha, h) owf_hashes /\ a_oid mgf = "id_mgf1" /\
    seen (l_dec_alg L) (a_params mgf) (PAlg ma) ma /\ a_oid ma = a_oid ha /\
    l_verify L (SPss h (if n =? 0 then digest_size h else n)) k sig data = Ok tt.
Proof.
  intros L k p data sig. unfold verify_rsassa_pss_from_alg_id. cbn [a_oid a_params String.eqb Ascii.eqb Bool.eqb].
  change (String.eqb "id_RSASSA_PSS" "id_RSASSA_PSS") with true. cbv iota. split.
  - intro H. apply bind_inv in H as ([] & _ & H). apply bind_inv in H as ([[ha mgf] n] & E1 & H).
    apply bind_inv in H as (hn & E2 & H). apply bind_inv in H as (h & E3 & H). apply bind_inv in H as ([] & E4 & H).
    apply bind_inv in H as (ma & E5 & H). apply bind_inv in H as ([] & E6 & H).
    destruct hn as [hn|]; [|discriminate E3]. apply load_pss in E1. apply load_alg in E5.
    destruct (owf_fwd _ _ E2) as (h' & I1 & I2). assert (h' = h) by congruence. subst h'.
    apply guard_err_false in E4, E6. apply String.eqb_eq in E4, E6.
    exists ha, mgf, ma, n, h. auto 10.
  - intros (ha & mgf & ma & n & h & S1 & I & M & S2 & Q & V).
    assert (NA : is_absent p = false) by (destruct p; auto; exfalso; eapply (seen_absent _ _ _ _); [|exact S1]; discriminate).
    rewrite NA. cbn [negb guard bind]. rewrite (proj2 (load_pss L p EValueError ha mgf n) S1). cbn [bind].
    destruct (owf_back _ _ I) as (hn & E1 & E2). rewrite E1. cbn [bind]. rewrite E2. cbn [bind].
    rewrite M, String.eqb_refl. cbn [guard bind]. rewrite (proj2 (load_alg L _ EValueError ma) S2). cbn [bind].
    rewrite Q, String.eqb_refl. cbn [guard bind]. exact V.
Qed.

Lemma str_length_app : forall a b : string, String.length (a ++ b) = (String.length a + String.length b)%nat.
Proof. induction a as [|c a IH]; intro b; [reflexivity|]. cbn. now rewrite IH. Qed.
Lemma rev_app_inj : forall a b c, a ++ c = b ++ c -> a = b.
Proof.
  intros a b c H. assert (L : String.length a = String.length b).
  { apply (f_equal String.length) in H. rewrite !str_length_app in H. lia. }
  revert b H L. induction a as [|x a IH]; intros [|y b] H L; cbn in *; try discriminate; [reflexivity|].
  inversion H. f_equal. apply IH; auto.
Qed.

(** Post-quantum names *)
Definition chk_pq (n : string) : bool :=
  str_mem n PQ_NAMES && has (pq n) PQ_OID_2_NAME
  && match get_hash_from_oid (pq n) true, get_hash_from_oid (pq n) false with Ok None, Ok None => true | _, _ => false end
  && match validate_sig_alg_id (Alg (pq n) PAbsent), lookup (pq n) COMPOSITE_SIG_OID_TO_NAME with
     | Ok tt, None => true | _, _ => false end
  && negb (has (pq n) RSASSA_PSS_OID_2_NAME) && negb (has (pq n) SYMMETRIC_PROT_ALGO).
Definition pre_eqb (r : result (option string)) (h : string) : bool :=
  match r with Ok (Some x) => String.eqb x h | _ => false end.
Definition chk_pre (p : string * string) : bool :=
  let (n, h) := p in let m := n ++ "-" ++ h in
  str_mem m PQ_NAMES && has (pq m) PQ_OID_2_NAME
  && pre_eqb (get_hash_from_oid (pq m) true) h && pre_eqb (get_hash_from_oid (pq m) false) h
  && match validate_sig_alg_id (Alg (pq m) PAbsent), lookup (pq m) COMPOSITE_SIG_OID_TO_NAME with
     | Ok tt, None => true | _, _ => false end
  && negb (has (pq m) RSASSA_PSS_OID_2_NAME) && negb (has (pq m) SYMMETRIC_PROT_ALGO)
  && match hash_name_to_instance h with Ok x => String.eqb x h | _ => false end
  && pre_eqb (Ok (check_hash_alg n (Some h) false)) h && pre_eqb (Ok (check_hash_alg n (Some h) true)) h
  && String.eqb (last_part h) h.
Lemma chk_pq_all : forallb chk_pq pq_key_names = true.
Proof. vm_compute. reflexivity. Qed.
Lemma chk_pre_all : forallb chk_pre pq_prehash = true.
Proof. vm_compute. reflexivity. Qed.
(** What the code computes for the identifier of a post-quantum key. *)
Definition pq_facts (m : string) (h : option string) : Prop :=
  In m PQ_NAMES /\ has (pq m) PQ_OID_2_NAME = true /\
  get_hash_from_oid (pq m) true = Ok h /\ get_hash_from_oid (pq m) false = Ok h /\
  validate_sig_alg_id (Alg (pq m) PAbsent) = Ok tt /\ lookup (pq m) COMPOSITE_SIG_OID_TO_NAME = None /\
  has (pq m) RSASSA_PSS_OID_2_NAME = false /\ has (pq m) SYMMETRIC_PROT_ALGO = false.
Lemma pq_ok : forall n, In n pq_key_names -> pq_facts n None.
Proof.
  intros n H. pose proof (proj1 (forallb_forall _ _) chk_pq_all _ H) as C. unfold chk_pq in C.
  apply andb_prop in C as (C & C6). apply andb_prop in C as (C & C5). apply andb_prop in C as (C & C4).
  apply andb_prop in C as (C & C3). apply andb_prop in C as (C1 & C2). apply negb_true_iff in C5, C6.
  apply str_mem_In in C1. unfold pq_facts.
  destruct (get_hash_from_oid (pq n) true) as [[x|]|]; try discriminate C3.
  destruct (get_hash_from_oid (pq n) false) as [[x|]|]; try discriminate C3.
  destruct (validate_sig_alg_id (Alg (pq n) PAbsent)) as [[]|]; try discriminate C4.
  destruct (lookup (pq n) COMPOSITE_SIG_OID_TO_NAME); try discriminate C4. auto 10.
Qed.
Definition pre_facts (n h : string) : Prop :=
  hash_name_to_instance h = Ok h /\ check_hash_alg n (Some h) false = Some h /\ check_hash_alg n (Some h) true = Some h /\
  last_part h = h.
Lemma pre_ok : forall n h, In (n, h) pq_prehash -> pq_facts (n ++ "-" ++ h) (Some h) /\ pre_facts n h.
Proof.
  intros n h H. pose proof (proj1 (forallb_forall _ _) chk_pre_all _ H) as C. unfold chk_pre in C.
  apply andb_prop in C as (C & C11). apply andb_prop in C as (C & C10). apply andb_prop in C as (C & C9).
  apply andb_prop in C as (C & C8). apply andb_prop in C as (C & C7). apply andb_prop in C as (C & C6).
  apply andb_prop in C as (C & C5). apply andb_prop in C as (C & C4). apply andb_prop in C as (C & C3).
  apply andb_prop in C as (C1 & C2). apply negb_true_iff in C6, C7. apply str_mem_In in C1.
  apply String.eqb_eq in C11. unfold pq_facts, pre_facts, pre_eqb in *.
  destruct (get_hash_from_oid (pq (n ++ "-" ++ h)) true) as [[x|]|]; try discriminate C3. apply String.eqb_eq in C3.
  destruct (get_hash_from_oid (pq (n ++ "-" ++ h)) false) as [[y|]|]; try discriminate C4. apply String.eqb_eq in C4.
  destruct (validate_sig_alg_id (Alg (pq (n ++ "-" ++ h)) PAbsent)) as [[]|]; try discriminate C5.
  destruct (lookup (pq (n ++ "-" ++ h)) COMPOSITE_SIG_OID_TO_NAME); try discriminate C5.
  destruct (hash_name_to_instance h); [|discriminate C8]. apply String.eqb_eq in C8.
  destruct (check_hash_alg n (Some h) false); [|discriminate C9]. apply String.eqb_eq in C9.
  destruct (check_hash_alg n (Some h) true); [|discriminate C10]. apply String.eqb_eq in C10.
  subst. auto 20.
Qed.
Lemma pq_inj : forall a b, pq a = pq b -> a = b.
Proof. intros a b H. unfold pq in H. now apply app_inj in H. Qed.

(** The pre-hash names are those of the list. *)
Definition chk_prehash (p : oid * string) : bool :=
  existsb (fun q => String.eqb (snd p) (fst q ++ "-" ++ snd q) && String.eqb (last_part (snd p)) (snd q)) pq_prehash.
Lemma prehash_dom : forall o m, lookup o PQ_SIG_PRE_HASH_OID_2_NAME = Some m ->
  exists n, In (n, last_part m) pq_prehash /\ m = n ++ "-" ++ last_part m /\ o = pq m.
Proof.
  intros o m H. apply lookup_In in H.
  assert (A : forallb chk_prehash PQ_SIG_PRE_HASH_OID_2_NAME = true) by (vm_compute; reflexivity).
  pose proof (proj1 (forallb_forall _ _) A _ H) as C. unfold chk_prehash in C. cbn [snd] in C.
  apply existsb_exists in C as ([n h] & I & C). cbn [fst snd] in C. apply andb_prop in C as (C1 & C2).
  apply String.eqb_eq in C1, C2. subst h. exists n. repeat split; auto.
  unfold PQ_SIG_PRE_HASH_OID_2_NAME, by_oid in H. apply in_map_iff in H as (x & E & _). congruence.
Qed.

(** A post-quantum key. *)
Lemma consistent_pq : forall o n h, In n pq_key_names -> has o PQ_OID_2_NAME || has o TRAD_SIG_OID_2_NAME = true ->
  lookup o COMPOSITE_SIG_OID_TO_NAME = None ->
  get_hash_from_oid o true = Ok h -> check_consistency o (KPq n) = Ok tt ->
  (h = None /\ o = pq n) \/ exists x, h = Some x /\ In (n, x) pq_prehash /\ o = pq (n ++ "-" ++ x).
Proof.
  intros o n h W HP HC HH H. unfold check_consistency in H. rewrite HH in H. cbn [bind] in H.
  apply bind_inv in H as ([] & E1 & E2). apply guard_err_false in E1, E2. apply str_mem_In in E1.
  apply String.eqb_eq in E2. destruct h as [x|].
  - right. exists x. split; [reflexivity|].
    assert (HPQ : has o PQ_OID_2_NAME = true).
    { subst o. apply has_In. unfold PQ_OID_2_NAME, by_oid. rewrite map_map. cbn [fst]. apply in_map. exact E1. }
    unfold get_hash_from_oid in HH. destruct (str_mem o ["id_Ed25519"; "id_Ed448"]); [discriminate|].
    destruct (lookup o COMPOSITE_SIG_PREHASH_OID_2_HASH) eqn:C1.
    { exfalso. apply lookup_In in C1. unfold COMPOSITE_SIG_PREHASH_OID_2_HASH in C1. apply in_map_iff in C1 as (q & Eq & _).
      inversion Eq as [[Ea Eb]]. rewrite <- E2 in Ea. discriminate Ea. }
    destruct (lookup o PQ_SIG_PRE_HASH_OID_2_NAME) as [m|] eqn:C2; [|rewrite HPQ in HH; discriminate HH].
    inversion HH as [EX]. destruct (prehash_dom _ _ C2) as (n' & I & Em & Eo).
    assert (Q : n ++ "-" ++ x = n' ++ "-" ++ last_part m).
    { rewrite <- Em. apply pq_inj. rewrite <- Eo. now rewrite <- E2. }
    rewrite EX in *. apply rev_app_inj in Q. subst n'. split; [exact I|]. rewrite Eo. f_equal. exact Em.
  - left. split; [reflexivity|]. rewrite <- E2. unfold pq. rewrite app_nil_r_s. reflexivity.
Qed.

Lemma comp_lookup : forall o n, lookup o COMPOSITE_SIG_OID_TO_NAME = Some n ->
  o = comp n /\ In n (List.map fst COMPOSITE_SIG_HASH).
Proof.
  intros o n H. apply lookup_In in H. unfold COMPOSITE_SIG_OID_TO_NAME in H. apply in_map_iff in H as ([x y] & E & I).
  cbn [fst] in E. inversion E; subst. split; [reflexivity|]. now apply (in_map fst) in I.
Qed.
Definition chk_comp (n : string) : bool :=
  match lookup (comp n) COMPOSITE_SIG_OID_TO_NAME with Some x => String.eqb x n | None => false end.
Lemma comp_back : forall n, In n (List.map fst COMPOSITE_SIG_HASH) -> lookup (comp n) COMPOSITE_SIG_OID_TO_NAME = Some n.
Proof.
  intros n H. assert (A : forallb chk_comp (List.map fst COMPOSITE_SIG_HASH) = true) by (vm_compute; reflexivity).
  pose proof (proj1 (forallb_forall _ _) A _ H) as C. unfold chk_comp in C.
  destruct (lookup (comp n) COMPOSITE_SIG_OID_TO_NAME); [|discriminate C]. apply String.eqb_eq in C. now subst.
Qed.

Lemma validate_pq : forall n p, In n pq_key_names ->
  validate_sig_alg_id (Alg (pq n) p) = guard (is_absent p) EBadSigAlgID.
Proof.
  intros n p H. unfold pq_key_names, ML_DSA_NAMES, SLH_DSA_NAMES, FALCON_NAMES in H. cbn [app In] in H. enum H; reflexivity.
Qed.
Lemma validate_pre : forall n h p, In (n, h) pq_prehash ->
  validate_sig_alg_id (Alg (pq (n ++ "-" ++ h)) p) = guard (is_absent p) EBadSigAlgID.
Proof. intros n h p H. cbv [pq_prehash In] in H. enum H; reflexivity. Qed.
Lemma validate_stf : forall o p, In o stateful_oids ->
  validate_sig_alg_id (Alg o p) = guard (is_absent p) EBadSigAlgID.
Proof. intros o p H. cbv [stateful_oids In] in H. enum H; reflexivity. Qed.
Lemma absent_guard : forall p e, guard (is_absent p) e = Ok tt -> p = PAbsent.
Proof. intros p e H. apply absent_spec. now apply guard_err_false in H. Qed.

Theorem sig_exact : forall L k a data sig, wf_kind (k_kind k) ->
  (verify_signature_with_alg_id L k a data sig = Ok tt <->
   exists s, sig_scheme L a (k_kind k) s /\ l_verify L s k sig data = Ok tt).
Proof.
  intros L k [o p] data sig W. split.
  - intro H. unfold verify_signature_with_alg_id in H. cbn [a_oid] in H. apply bind_inv in H as ([] & HV & H).
    destruct (lookup o COMPOSITE_SIG_OID_TO_NAME) as [n|] eqn:HC.
    { destruct (k_kind k) eqn:KK; try discriminate H. destruct (comp_lookup _ _ HC) as (-> & I).
      exists (SComp (endswith "-pss" n)). split; [|exact H].
      assert (p = PAbsent); [|subst p; now constructor].
      unfold validate_sig_alg_id in HV. cbn [a_oid a_params] in HV. unfold has at 1 in HV. rewrite HC in HV.
      apply guard_err_false in HV. now apply absent_spec. }
    destruct (has o RSASSA_PSS_OID_2_NAME && _) eqn:HS.
    { apply andb_prop in HS as (HS & KR). destruct (k_kind k) eqn:KK; try discriminate KR.
      unfold RSASSA_PSS_OID_2_NAME in HS. apply has_In in HS. cbn [List.map fst In] in HS.
      destruct HS as [<-|[<-|[<-|[]]]].
      - apply pss_exact in H as (ha & mgf & ma & n & h & S1 & I & M & S2 & Q & V).
        exists (SPss h (if n =? 0 then digest_size h else n)). split; [|exact V]. exact (SG_pss L p ha mgf ma n h S1 I M S2 Q).
      - exists (SPssShake "shake128" 32). cbv [validate_sig_alg_id] in HV.
        assert (p = PAbsent) by (apply absent_spec; apply guard_err_false with EBadSigAlgID; exact HV). subst p.
        split; [|exact H]. apply SG_shake. now left.
      - exists (SPssShake "shake256" 64).
        assert (p = PAbsent) by (apply absent_spec; apply guard_err_false with EBadSigAlgID; exact HV). subst p.
        split; [|exact H]. apply SG_shake. right; now left. }
    destruct (has o PQ_OID_2_NAME || has o TRAD_SIG_OID_2_NAME) eqn:HP; [|discriminate H].
    apply bind_inv in H as (h & HH & H). 
    set (r := (let! h := get_hash_from_oid o true in let! _ := check_consistency o (k_kind k) in Ok h)) in HH.
    assert (HR : r = Ok h) by (destruct r as [y|[]]; try discriminate HH; exact HH). unfold r in HR. clear r HH. rename HR into HH.
    apply bind_inv in HH as (h' & HG & HH). apply bind_inv in HH as ([] & HK & HH). assert (h' = h) by congruence. subst h'.
    clear HH. unfold verify_signature in H. apply bind_inv in H as (s & HSch & HL).
    destruct (k_kind k) eqn:KK; try (unfold check_consistency in HK; rewrite HG in HK; discriminate HK).
    + unfold check_consistency, check_trad_sig_alg_id in HK. rewrite HG in HK. cbn [bind] in HK.
      apply guard_err_false in HK. apply is_trad in HK. apply trad_rsa in HK.
      destruct (rsa_facts _ _ HK) as (F1 & F2 & _). assert (h = Some (match h with None => "None" | Some x => x end)) by congruence.
      destruct h as [x|]; [|discriminate]. cbn [verify_scheme opt_instance] in HSch. rewrite F2 in HSch. cbn [bind] in HSch.
      inversion HSch; subst s. exists (SPkcs1 x). split; [|exact HL]. constructor; [exact HK|].
      exact (proj1 (validate_rsa _ _ _ HK) HV).
    + unfold check_consistency, check_trad_sig_alg_id in HK. rewrite HG in HK. cbn [bind] in HK.
      apply guard_err_false in HK. apply is_trad in HK. apply trad_ec in HK.
      destruct (ec_facts _ _ HK) as (F1 & F2 & _). assert (h = Some (match h with None => "None" | Some x => x end)) by congruence.
      destruct h as [x|]; [|discriminate]. cbn [verify_scheme opt_instance] in HSch. rewrite F2 in HSch. cbn [bind] in HSch.
      inversion HSch; subst s. exists (SEcdsa x). split; [|exact HL].
      rewrite (proj1 (validate_ec _ _ _ HK) HV). now constructor.
    + unfold check_consistency, check_trad_sig_alg_id in HK. rewrite HG in HK. cbn [bind] in HK.
      apply guard_err_false in HK. apply is_trad in HK. assert (o = "id_Ed25519") by (vm_compute in HK; congruence). subst o.
      assert (p = PAbsent) by (apply absent_spec; apply guard_err_false with EBadSigAlgID; exact HV). subst p.
      assert (h = None) by (vm_compute in HG; congruence). subst h. inversion HSch; subst s. exists SEd. split; [constructor|exact HL].
    + unfold check_consistency, check_trad_sig_alg_id in HK. rewrite HG in HK. cbn [bind] in HK.
      apply guard_err_false in HK. apply is_trad in HK. assert (o = "id_Ed448") by (vm_compute in HK; congruence). subst o.
      assert (p = PAbsent) by (apply absent_spec; apply guard_err_false with EBadSigAlgID; exact HV). subst p.
      assert (h = None) by (vm_compute in HG; congruence). subst h. inversion HSch; subst s. exists SEd. split; [constructor|exact HL].
    + cbn [wf_kind] in W. destruct (consistent_pq _ _ _ W HP HC HG HK) as [(-> & ->)|(x & -> & I & ->)].
      * rewrite (validate_pq _ _ W) in HV. apply absent_guard in HV. subst p. cbn [verify_scheme check_hash_alg] in HSch.
        inversion HSch; subst s. eexists; split; [|exact HL]. now constructor.
      * rewrite (validate_pre _ _ _ I) in HV. apply absent_guard in HV. subst p.
        destruct (pre_ok _ _ I) as (_ & _ & P2 & _). cbn [verify_scheme] in HSch. rewrite P2 in HSch.
        inversion HSch; subst s. eexists; split; [|exact HL]. now constructor.
    + unfold check_consistency in HK. rewrite HG in HK. cbn [bind] in HK. apply guard_err_false in HK.
      apply String.eqb_eq in HK. subst o0. cbn [wf_kind] in W. rewrite (validate_stf _ _ W) in HV. apply absent_guard in HV.
      subst p. inversion HSch; subst s. eexists; split; [|exact HL]. now constructor.
  - intros (s & SS & V). unfold verify_signature_with_alg_id. cbn [a_oid].
    remember (k_kind k) as kk eqn:KK. remember (Alg o p) as a eqn:EA.
    destruct SS as [o' p' h I N|o' h I| | |p' ha mgf ma n h S1 I M S2 Q|o' h n I|n I|n h I|o' I|n x y I];
      inversion EA; subst o p; cbn [a_oid].
    + rewrite (proj2 (validate_rsa _ _ _ I) N). cbn [bind]. destruct (rsa_facts _ _ I) as (F1 & F2 & F3 & F4 & F5 & F6 & F7).
      rewrite F4, (rsa_not_pss _ _ I), F5, F6. cbn [andb orb]. unfold check_consistency, check_trad_sig_alg_id.
      rewrite F1. cbn [bind]. rewrite (rsa_back _ _ I), String.eqb_refl. cbn [guard bind].
      unfold verify_signature. rewrite <- KK. cbn [verify_scheme opt_instance]. rewrite F2. exact V.
    + rewrite (proj2 (validate_ec _ _ _ I) eq_refl). cbn [bind]. destruct (ec_facts _ _ I) as (F1 & F2 & F3 & F4 & F5 & F6 & F7).
      rewrite F4, (ec_not_pss _ _ I), F5, F6. cbn [andb orb]. unfold check_consistency, check_trad_sig_alg_id.
      rewrite F1. cbn [bind]. rewrite (ec_back _ _ I), String.eqb_refl. cbn [guard bind].
      unfold verify_signature. rewrite <- KK. cbn [verify_scheme opt_instance]. rewrite F2. exact V.
    + unfold verify_signature. rewrite <- KK. exact V.
    + unfold verify_signature. rewrite <- KK. exact V.
    + assert (NA : p' <> PAbsent) by (intros ->; eapply seen_absent; [|exact S1]; discriminate).
      assert (HV : validate_sig_alg_id (Alg "id_RSASSA_PSS" p') = guard (negb (is_absent p')) EBadSigAlgID) by reflexivity.
      rewrite HV. replace (is_absent p') with false by (symmetry; destruct p'; try reflexivity; congruence). cbn [negb guard bind].
      apply pss_exact. exists ha, mgf, ma, n, h. auto 10.
    + cbn [pss_shakes In] in I. enum I; exact V.
    + destruct (pq_ok _ I) as (F1 & F2 & F3 & F4 & F5 & F6 & F7 & F8). rewrite F5. cbn [bind]. rewrite F6, F7, F2. cbn [andb orb].
      unfold check_consistency. rewrite F3. cbn [bind]. rewrite app_nil_r_s. rewrite (proj2 (str_mem_In _ _) F1), String.eqb_refl.
      cbn [guard bind]. unfold verify_signature. rewrite <- KK. exact V.
    + destruct (pre_ok _ _ I) as ((F1 & F2 & F3 & F4 & F5 & F6 & F7 & F8) & P1 & P2 & P3 & P4). rewrite F5. cbn [bind].
      repeat match goal with |- context [pq ?x] => progress (change x with (n ++ "-" ++ h)) end.
      rewrite F6, F7, F2. cbn [andb orb]. unfold check_consistency. rewrite F3. cbn [bind].
      match goal with |- context [str_mem ?x PQ_NAMES] => change x with (n ++ "-" ++ h) end.
      rewrite (proj2 (str_mem_In _ _) F1), String.eqb_refl. cbn [guard bind]. unfold verify_signature. rewrite <- KK.
      cbn [verify_scheme]. rewrite P2. exact V.
    + cbn [stateful_oids In] in I. unfold verify_signature. rewrite <- KK. enum I; exact V.
    + rewrite (comp_back _ I).
      assert (HV : validate_sig_alg_id (Alg (comp n) PAbsent) = Ok tt)
        by (unfold validate_sig_alg_id, has; cbn [a_oid]; rewrite (comp_back _ I); reflexivity).
      rewrite HV. exact V.
Qed.

(** ** Protecting with a signature *)

Lemma pss_suffix : forall h x, "rsa-" ++ h ++ "" = x -> h = match x with
  String _ (String _ (String _ (String _ r))) => r | _ => "" end.
Proof. intros h x <-. cbn. now rewrite app_nil_r_s. Qed.
Lemma signing_rsa : forall h o, get_signing_oid KRsa h false = Some o ->
  In (o, h) rsa_hashes \/ (has o RSASSA_PSS_OID_2_NAME = true /\ sha_alg_name_to_oid h = Err EValueError /\ str_mem h ["shake128"; "shake256"] = false).
Proof.
  intros h o H. unfold get_signing_oid in H. change (key_type KRsa) with "rsa" in H. cbn [andb] in H. cbv zeta in H.
  change ("rsa" ++ "-" ++ h ++ "") with ("rsa-" ++ h ++ "") in H.
  destruct (lookup ("rsa-" ++ h ++ "") _) as [x|] eqn:E.
  - right. apply lookup_In in E. inversion H; subst x. cbn [In] in E. destruct E as [E|[E|[E|[]]]];
      pose proof (f_equal fst E) as E1; pose proof (f_equal snd E) as E2; cbn [fst snd] in E1, E2;
      symmetry in E1, E2; apply pss_suffix in E1;
      subst h o; repeat split; reflexivity.
  - change (rlookup "rsa" TRAD_SIG_OID_2_NAME) with (@None oid) in H.
    change (rlookup "rsa" (MSG_SIG_ALG ++ SYMMETRIC_PROT_ALGO)%list) with (@None oid) in H.
    destruct (rlookup ("rsa-" ++ h ++ "") OID_HASH_MAP0) as [x|] eqn:E2; [|discriminate H]. inversion H; subst x.
    left. apply rlookup_In in E2. rewrite app_nil_r_s in E2.
    assert (A : forallb chk_rsa OID_HASH_MAP0 = true) by (vm_compute; reflexivity).
    pose proof (proj1 (forallb_forall _ _) A _ E2) as C. unfold chk_rsa, startswith in C. cbn [fst snd] in C.
    rewrite prefix_app in C. destruct (lookup o rsa_hashes) as [x|] eqn:E3; [|discriminate C].
    apply String.eqb_eq in C. apply app_inj in C. subst x. now apply lookup_In.
Qed.
Lemma signing_ec : forall h o, get_signing_oid KEc h false = Some o -> In (o, h) ecdsa_hashes.
Proof.
  intros h o H. unfold get_signing_oid in H. change (key_type KEc) with "ecdsa" in H. cbn [andb] in H. cbv zeta in H.
  change ("ecdsa" ++ "-" ++ h ++ "") with ("ecdsa-" ++ h ++ "") in H.
  change (lookup ("ecdsa-" ++ h ++ "") _) with (@None oid) in H.
  change (rlookup "ecdsa" TRAD_SIG_OID_2_NAME) with (@None oid) in H.
  change (rlookup "ecdsa" (MSG_SIG_ALG ++ SYMMETRIC_PROT_ALGO)%list) with (@None oid) in H.
  destruct (rlookup ("ecdsa-" ++ h ++ "") OID_HASH_MAP0) as [x|] eqn:E2; [|discriminate H]. inversion H; subst x.
  apply rlookup_In in E2. rewrite app_nil_r_s in E2.
  assert (A : forallb chk_ec OID_HASH_MAP0 = true) by (vm_compute; reflexivity).
  pose proof (proj1 (forallb_forall _ _) A _ E2) as C. unfold chk_ec, startswith in C. cbn [fst snd] in C.
  rewrite prefix_app in C. destruct (lookup o ecdsa_hashes) as [x|] eqn:E3; [|discriminate C].
  apply String.eqb_eq in C. apply app_inj in C. subst x. now apply lookup_In.
Qed.
Lemma signing_pq : forall n h, get_signing_oid (KPq n) h false = None.
Proof. intros n h. reflexivity. Qed.

Fixpoint strip_prefix (a s : string) : option string :=
  match a, s with
  | EmptyString, _ => Some s
  | String x a', String y s' => if Ascii.eqb x y then strip_prefix a' s' else None
  | _, _ => None
  end.
Lemma strip_prefix_app : forall a b, strip_prefix a (a ++ b) = Some b.
Proof. induction a as [|c a IH]; intro b; cbn; [reflexivity|]. now rewrite Ascii.eqb_refl. Qed.
Definition pair_mem (n h : string) (l : list (string * string)) : bool :=
  existsb (fun p => String.eqb (fst p) n && String.eqb (snd p) h) l.
Lemma pair_mem_In : forall n h l, pair_mem n h l = true -> In (n, h) l.
Proof.
  intros n h l H. apply existsb_exists in H as ([x y] & I & E). cbn [fst snd] in E. apply andb_prop in E as (E1 & E2).
  apply String.eqb_eq in E1, E2. now subst.
Qed.
Definition chk_slh (n m : string) : bool :=
  match strip_prefix (n ++ "-") m with None => true | Some x => pair_mem n x pq_prehash end.
Lemma hash_alg_pq : forall n h x, check_hash_alg n (Some h) false = Some x -> In (n, x) pq_prehash.
Proof.
  intros n h x H. unfold check_hash_alg in H. destruct (str_mem n ML_DSA_NAMES) eqn:E1.
  - destruct (String.eqb h "sha512"); [|discriminate H]. inversion H; subst x. apply str_mem_In in E1.
    cbn [ML_DSA_NAMES In] in E1. destruct E1 as [<-|[<-|[<-|[]]]]; cbn; tauto.
  - destruct (str_mem n SLH_DSA_NAMES) eqn:E2; [|discriminate H]. cbv zeta in H.
    destruct (str_mem (n ++ "-" ++ h) SLH_DSA_PRE_HASH_NAMES) eqn:E3; [|discriminate H]. inversion H; subst x.
    apply str_mem_In in E2, E3.
    assert (A : forallb (fun n => forallb (chk_slh n) SLH_DSA_PRE_HASH_NAMES) SLH_DSA_NAMES = true) by (vm_compute; reflexivity).
    pose proof (proj1 (forallb_forall _ _) A _ E2) as B. cbv beta in B.
    pose proof (proj1 (forallb_forall _ _) B _ E3) as C. unfold chk_slh in C.
    rewrite <- app_assoc_s, strip_prefix_app in C. now apply pair_mem_In.
Qed.

(** What the verifier of a message does with the identifier. *)
Definition sig_route (o : oid) (k : kkind) (s : scheme) : Prop :=
  String.eqb o "id_KemBasedMac" = false /\ String.eqb o "id_DHBasedMac" = false /\ has o SYMMETRIC_PROT_ALGO = false /\
  has o RSASSA_PSS_OID_2_NAME = false /\
  has o TRAD_SIG_OID_2_NAME || has o PQ_SIG_OID_2_NAME || has o PQ_STATEFUL_OID_2_NAME = true /\
  exists hn, get_hash_from_oid o false = Ok hn /\ verify_scheme k (option_map last_part hn) = Ok s.
Lemma route_rsa : forall o h, In (o, h) rsa_hashes -> sig_route o KRsa (SPkcs1 h).
Proof. intros o h H. cbv [rsa_hashes In] in H. enum H; repeat split; try reflexivity; eexists; split; reflexivity. Qed.
Lemma route_ec : forall o h, In (o, h) ecdsa_hashes -> sig_route o KEc (SEcdsa h).
Proof. intros o h H. cbv [ecdsa_hashes In] in H. enum H; repeat split; try reflexivity; eexists; split; reflexivity. Qed.
Lemma route_pq : forall n, In n pq_key_names -> sig_route (pq n) (KPq n) (SPq None).
Proof.
  intros n H. destruct (pq_ok _ H) as (F1 & F2 & F3 & F4 & F5 & F6 & F7 & F8). repeat split; auto.
  - unfold pq_key_names, ML_DSA_NAMES, SLH_DSA_NAMES, FALCON_NAMES in H. cbn [app In] in H. enum H; reflexivity.
  - exists None. split; [exact F4|reflexivity].
Qed.
Lemma route_pre : forall n h, In (n, h) pq_prehash -> sig_route (pq (n ++ "-" ++ h)) (KPq n) (SPq (Some h)).
Proof.
  intros n h H. destruct (pre_ok _ _ H) as ((F1 & F2 & F3 & F4 & F5 & F6 & F7 & F8) & P1 & P2 & P3 & P4). repeat split; auto.
  - cbv [pq_prehash In] in H. enum H; reflexivity.
  - exists (Some h). split; [exact F4|]. cbn [option_map verify_scheme]. now rewrite P4, P2.
Qed.
Lemma route_stf : forall o, In o stateful_oids -> sig_route o (KStf o) SStf.
Proof. intros o H. cbn [stateful_oids In] in H. enum H; repeat split; try reflexivity; eexists; split; reflexivity. Qed.
Lemma route_ed : sig_route "id_Ed25519" KEd25519 SEd /\ sig_route "id_Ed448" KEd448 SEd.
Proof. split; repeat split; try reflexivity; eexists; split; reflexivity. Qed.

Lemma wire_absent : forall L o, wire_alg L (Alg o PAbsent) = Alg o PAbsent.
Proof. reflexivity. Qed.
Lemma prepare_sig_fits : forall L r1 r2 k h a data v, codec_ok L -> wf_kind (k_kind k) -> single_key (k_kind k) = true ->
  prepare_sig_alg_id r1 (k_kind k) h false false = Ok a -> sign_data_with_alg_id L r2 k a data = v ->
  exists s, sig_scheme L a (k_kind k) s /\ sig_scheme L (wire_alg L a) (k_kind k) s /\
            sig_route (a_oid a) (k_kind k) s /\ l_sign L r2 s k data = v.
Proof.
  intros L r1 r2 k h a data v CK W SK HP HS. unfold sign_data_with_alg_id in HS. unfold prepare_sig_alg_id in HP.
  destruct (k_kind k) eqn:KK; try discriminate SK; apply bind_inv in HP as (o' & HO & HP).
  - cbn [get_alg_oid_from_key_hash] in HO. destruct (get_signing_oid KRsa h false) as [x|] eqn:G; [|discriminate HO].
    inversion HO; subst x. destruct (signing_rsa _ _ G) as [I|(P & E & E2)].
    + rewrite (rsa_not_pss _ _ I) in HP. inversion HP; subst a. destruct (rsa_facts _ _ I) as (F1 & F2 & F3 & F4 & F5 & F6 & F7).
      cbn [a_oid] in HS. rewrite (rsa_not_pss _ _ I), F6, F5 in HS. cbn [andb orb] in HS. rewrite F1 in HS. cbn [bind] in HS.
      unfold sign_data in HS. rewrite KK in HS. unfold sign_scheme, opt_instance in HS. rewrite F2 in HS. cbn [bind] in HS.
      exists (SPkcs1 h). split; [apply SG_rsa; [exact I|now left]|]. split; [|split; [now apply route_rsa|exact HS]].
      unfold wire_alg. cbn [a_oid a_params wire]. apply SG_rsa; [exact I|]. right; left. now rewrite (proj1 (ck_null _ CK)).
    + rewrite P in HP. unfold prepare_rsa_pss_alg_id in HP. rewrite E2, E in HP. discriminate HP.
  - cbn [get_alg_oid_from_key_hash] in HO. destruct (get_signing_oid KEc h false) as [x|] eqn:G; [|discriminate HO].
    inversion HO; subst x. pose proof (signing_ec _ _ G) as I.
    rewrite (ec_not_pss _ _ I) in HP. inversion HP; subst a. destruct (ec_facts _ _ I) as (F1 & F2 & F3 & F4 & F5 & F6 & F7).
    cbn [a_oid] in HS. rewrite (ec_not_pss _ _ I), F6, F5 in HS. cbn [andb orb] in HS. rewrite F1 in HS. cbn [bind] in HS.
    unfold sign_data in HS. rewrite KK in HS. unfold sign_scheme, opt_instance in HS. rewrite F2 in HS. cbn [bind] in HS.
    exists (SEcdsa h). rewrite wire_absent. split; [now apply SG_ecdsa|]. split; [now apply SG_ecdsa|].
    split; [now apply route_ec|exact HS].
  - assert (o' = "id_Ed25519") by (cbn [get_alg_oid_from_key_hash] in HO; change (get_signing_oid KEd25519 h false) with (Some "id_Ed25519") in HO; congruence).
    subst o'. inversion HP; subst a. unfold sign_data in HS. rewrite KK in HS. cbn [a_oid] in HS.
    exists SEd. rewrite wire_absent. split; [constructor|]. split; [constructor|]. split; [exact (proj1 route_ed)|exact HS].
  - assert (o' = "id_Ed448") by (cbn [get_alg_oid_from_key_hash] in HO; change (get_signing_oid KEd448 h false) with (Some "id_Ed448") in HO; congruence).
    subst o'. inversion HP; subst a. unfold sign_data in HS. rewrite KK in HS. cbn [a_oid] in HS.
    exists SEd. rewrite wire_absent. split; [constructor|]. split; [constructor|]. split; [exact (proj2 route_ed)|exact HS].
  - cbn [get_alg_oid_from_key_hash] in HO. rewrite signing_pq in HO. cbn [wf_kind] in W.
    destruct (check_hash_alg name (Some h) false) as [x|] eqn:CH.
    + pose proof (hash_alg_pq _ _ _ CH) as I.
      destruct (pre_ok _ _ I) as ((F1 & F2 & F3 & F4 & F5 & F6 & F7 & F8) & P1 & P2 & P3 & P4).
      cbv zeta in HO. rewrite (proj2 (str_mem_In _ _) F1) in HO. assert (EO : o' = pq (name ++ "-" ++ x)) by congruence.
      subst o'. rewrite F7 in HP. assert (EA : a = Alg (pq (name ++ "-" ++ x)) PAbsent) by congruence. subst a.
      cbn [a_oid] in HS. rewrite F7, F2 in HS. cbn [andb orb] in HS. rewrite F3 in HS. cbn [bind] in HS.
      unfold sign_data in HS. rewrite KK in HS. unfold sign_scheme, opt_instance in HS. rewrite P1 in HS. cbn [bind] in HS.
      rewrite P3 in HS. exists (SPq (Some x)). rewrite wire_absent.
      split; [now apply SG_pq_pre|]. split; [now apply SG_pq_pre|]. split; [now apply route_pre|exact HS].
    + destruct (pq_ok _ W) as (F1 & F2 & F3 & F4 & F5 & F6 & F7 & F8).
      cbv zeta in HO. rewrite (proj2 (str_mem_In _ _) F1) in HO. assert (EO : o' = pq name) by congruence.
      subst o'. rewrite F7 in HP. assert (EA : a = Alg (pq name) PAbsent) by congruence. subst a.
      cbn [a_oid] in HS. rewrite F7, F2 in HS. cbn [andb orb] in HS. rewrite F3 in HS. cbn [bind] in HS.
      unfold sign_data in HS. rewrite KK in HS. cbn [sign_scheme opt_instance bind check_hash_alg] in HS.
      exists (SPq None). rewrite wire_absent.
      split; [now apply SG_pq|]. split; [now apply SG_pq|]. split; [now apply route_pq|exact HS].
  - cbn [wf_kind] in W. assert (o' = o) by (cbn [get_alg_oid_from_key_hash] in HO; destruct (get_signing_oid (KStf o) h false); congruence).
    subst o'. destruct (route_stf _ W) as (R1 & R2 & R3 & R4 & R5 & R6).
    rewrite R4 in HP. assert (EA : a = Alg o PAbsent) by congruence. subst a. cbn [a_oid] in HS.
    exists SStf. rewrite wire_absent. split; [now apply SG_stf|]. split; [now apply SG_stf|]. split; [now apply route_stf|].
    rewrite <- HS. clear HS. unfold sign_data. rewrite KK. clear KK SK HP HO R1 R2 R3 R4 R5 R6. cbn [stateful_oids In] in W. enum W; reflexivity.
Qed.

(** ** Messages *)

Lemma secret_facts : forall o, ~ In o secret_oids ->
  String.eqb o "id_KemBasedMac" = false /\ String.eqb o "id_DHBasedMac" = false /\ has o SYMMETRIC_PROT_ALGO = false.
Proof.
  intros o H. repeat split.
  - apply String.eqb_neq. intros ->. apply H. cbn; tauto.
  - apply String.eqb_neq. intros ->. apply H. cbn; tauto.
  - apply has_false. intro I. apply H.
    assert (A : forallb (fun x => str_mem x secret_oids) (List.map fst SYMMETRIC_PROT_ALGO) = true) by (vm_compute; reflexivity).
    apply str_mem_In. exact (proj1 (forallb_forall _ _) A _ I).
Qed.
Lemma secret_sym : forall o, In o secret_oids -> has o SYMMETRIC_PROT_ALGO = true.
Proof.
  intros o I. assert (A : forallb (fun x => has x SYMMETRIC_PROT_ALGO) secret_oids = true) by (vm_compute; reflexivity).
  exact (proj1 (forallb_forall _ _) A _ I).
Qed.
Lemma lw_msg : forall o, has o MSG_SIG_ALG = true <-> In o lw_sig.
Proof.
  intro o. rewrite has_In. split; intro I.
  - assert (A : forallb (fun x => str_mem x lw_sig) (List.map fst MSG_SIG_ALG) = true) by (vm_compute; reflexivity).
    apply str_mem_In. exact (proj1 (forallb_forall _ _) A _ I).
  - apply has_In. assert (A : forallb (fun x => has x MSG_SIG_ALG) lw_sig = true) by (vm_compute; reflexivity).
    exact (proj1 (forallb_forall _ _) A _ I).
Qed.
Lemma lw_trad : forall o, In o lw_sig -> has o TRAD_SIG_OID_2_NAME = true.
Proof.
  intros o I. assert (A : forallb (fun x => has x TRAD_SIG_OID_2_NAME) lw_sig = true) by (vm_compute; reflexivity).
  exact (proj1 (forallb_forall _ _) A _ I).
Qed.
Lemma lw_gate : forall h a, h_alg h = Some a -> ~ In (a_oid a) secret_oids ->
  ((exists t, get_protection_type_from_pkimessage h true true true = Ok t) <-> In (a_oid a) lw_sig).
Proof.
  intros h a HA NS. destruct (secret_facts _ NS) as (F1 & F2 & F3). unfold get_protection_type_from_pkimessage, enforce_lwcmp_protection_alg.
  rewrite HA. unfold get_protection_type. rewrite F1, F2, F3.
  destruct (has (a_oid a) TRAD_SIG_OID_2_NAME) eqn:T; cbn [bind].
  - rewrite <- lw_msg. destruct (has (a_oid a) MSG_SIG_ALG); cbn [guard bind].
    + split; [reflexivity|intros _; now exists T_SIG].
    + split; [intros (t & E); discriminate E|intro E; discriminate E].
  - split; [|intro I; apply lw_trad in I; rewrite I in T; discriminate T].
    destruct (has (a_oid a) PQ_STATEFUL_OID_2_NAME); [intros (t & E); discriminate E|].
    destruct (has (a_oid a) PQ_SIG_OID_2_NAME); [intros (t & E); discriminate E|].
    destruct (has (a_oid a) COMPOSITE_SIG_OID_TO_NAME); intros (t & E); discriminate E.
Qed.
Lemma lw_gate_eq : forall h a, h_alg h = Some a -> ~ In (a_oid a) secret_oids -> forall r : result unit,
  ((let! _ := (let! _ := get_protection_type_from_pkimessage h true true true in Ok tt) in r) = Ok tt <->
   In (a_oid a) lw_sig /\ r = Ok tt).
Proof.
  intros h a HA NS r. rewrite <- (lw_gate _ _ HA NS). split.
  - intro H. apply bind_inv in H as ([] & H1 & H2). apply bind_inv in H1 as (t & H1 & _). eauto.
  - intros ((t & E) & R). now rewrite E.
Qed.

Lemma pss_cases : forall L k a data sig, has (a_oid a) RSASSA_PSS_OID_2_NAME = true ->
  (k_kind k = KRsa /\ verify_rsassa_pss_from_alg_id L k data sig a = Ok tt <->
   exists s, sig_scheme L a (k_kind k) s /\ l_verify L s k sig data = Ok tt).
Proof.
  intros L k [o p] data sig H. cbn [a_oid] in H. unfold RSASSA_PSS_OID_2_NAME in H. apply has_In in H. cbn [List.map fst In] in H.
  split.
  - intros (KK & V). rewrite KK. destruct H as [<-|[<-|[<-|[]]]].
    + apply pss_exact in V as (ha & mgf & ma & n & h & S1 & I & M & S2 & Q & V).
      exists (SPss h (if n =? 0 then digest_size h else n)). split; [|exact V]. exact (SG_pss L p ha mgf ma n h S1 I M S2 Q).
    + exists (SPssShake "shake128" 32). unfold verify_rsassa_pss_from_alg_id in V.
      change ((let! _ := guard (is_absent p) EBadDataFormat in l_verify L (SPssShake "shake128" 32) k sig data) = Ok tt) in V.
      apply bind_inv in V as ([] & E & V). apply absent_guard in E. subst p. split; [|exact V]. apply SG_shake; now left.
    + exists (SPssShake "shake256" 64).
      change ((let! _ := guard (is_absent p) EBadDataFormat in l_verify L (SPssShake "shake256" 64) k sig data) = Ok tt) in V.
      apply bind_inv in V as ([] & E & V). apply absent_guard in E. subst p. split; [|exact V]. apply SG_shake. right; now left.
  - intros (s & SS & V). remember (k_kind k) as kk eqn:KK. remember (Alg o p) as a eqn:EA.
    assert (EO : o = a_oid a) by (subst a; reflexivity).
    assert (HH : has (a_oid a) RSASSA_PSS_OID_2_NAME = true) by (rewrite <- EO; apply has_In; exact H). clear H.
    destruct SS as [o' p' h I N|o' h I| | |p' ha mgf ma n h S1 I M S2 Q|o' h n I|n I|n h I|o' I|n x y I]; cbn [a_oid] in HH.
    + rewrite (rsa_not_pss _ _ I) in HH; discriminate HH.
    + rewrite (ec_not_pss _ _ I) in HH; discriminate HH.
    + discriminate HH.
    + discriminate HH.
    + split; [reflexivity|]. apply pss_exact. exists ha, mgf, ma, n, h. auto 10.
    + split; [reflexivity|]. cbn [pss_shakes In] in I. enum I; exact V.
    + destruct (route_pq _ I) as (_ & _ & _ & X & _). congruence.
    + destruct (route_pre _ _ I) as (_ & _ & _ & X & _). congruence.
    + destruct (route_stf _ I) as (_ & _ & _ & X & _). congruence.
    + exfalso. cbn in I. clear - HH I. enum I; discriminate HH.
Qed.
Lemma scheme_route : forall L a k s, sig_scheme L a k s -> is_comp k = false ->
  has (a_oid a) RSASSA_PSS_OID_2_NAME = true \/ sig_route (a_oid a) k s.
Proof.
  intros L a k s SS NC.
  destruct SS as [o' p' h I N|o' h I| | |p' ha mgf ma n h S1 I M S2 Q|o' h n I|n I|n h I|o' I|n x y I]; cbn [a_oid].
  - right; now apply route_rsa.
  - right; now apply route_ec.
  - right; apply route_ed.
  - right; apply route_ed.
  - now left.
  - left. cbn [pss_shakes In] in I. enum I; reflexivity.
  - right; now apply route_pq.
  - right; now apply route_pre.
  - right; now apply route_stf.
  - discriminate NC.
Qed.

(** An identifier names one scheme. *)
Lemma seen_pss_fun : forall L p ha mgf n ha' mgf' n', seen (l_dec_pss L) p (PPss ha mgf n) (ha, mgf, n) ->
  seen (l_dec_pss L) p (PPss ha' mgf' n') (ha', mgf', n') -> ha = ha' /\ mgf = mgf' /\ n = n'.
Proof.
  intros L p ha mgf n ha' mgf' n' H1 H2. apply (load_pss L p EValueError) in H1, H2. rewrite H1 in H2.
  inversion H2; auto.
Qed.
Lemma owf_fun : forall o h h', In (o, h) owf_hashes -> In (o, h') owf_hashes -> h = h'.
Proof.
  intros o h h' H H'. destruct (owf_back _ _ H) as (n & A & B). destruct (owf_back _ _ H') as (n' & A' & B'). congruence.
Qed.
Lemma rsa_fun : forall o h h', In (o, h) rsa_hashes -> In (o, h') rsa_hashes -> h = h'.
Proof. intros o h h' H H'. destruct (rsa_facts _ _ H) as (A & _). destruct (rsa_facts _ _ H') as (B & _). congruence. Qed.
Lemma ec_fun : forall o h h', In (o, h) ecdsa_hashes -> In (o, h') ecdsa_hashes -> h = h'.
Proof. intros o h h' H H'. destruct (ec_facts _ _ H) as (A & _). destruct (ec_facts _ _ H') as (B & _). congruence. Qed.
Lemma scheme_fun : forall L a k s s', sig_scheme L a k s -> sig_scheme L a k s' -> s = s'.
Proof.
  intros L a k s s' H H'.
  destruct (is_comp k) eqn:NC.
  { destruct k; try discriminate NC. inversion H; subst; inversion H'; subst.
    reflexivity. }
  destruct (scheme_route _ _ _ _ H NC) as [P|R], (scheme_route _ _ _ _ H' NC) as [P'|R'].
  - assert (K : k = KRsa).
    { inversion H; subst; cbn [a_oid] in P; try reflexivity; try discriminate P.
      all: match goal with
           | I : In _ ecdsa_hashes |- _ => rewrite (ec_not_pss _ _ I) in P; discriminate P
           | I : In _ stateful_oids |- _ => destruct (route_stf _ I) as (_ & _ & _ & X & _); congruence
           end. }
    subst k. inversion H; subst; cbn [a_oid] in P.
    + match goal with I : In _ rsa_hashes |- _ => rewrite (rsa_not_pss _ _ I) in P; discriminate P end.
    + inversion H'; subst.
      * match goal with I : In _ rsa_hashes |- _ => rewrite (rsa_not_pss _ _ I) in P; discriminate P end.
      * match goal with X : seen (l_dec_pss _) _ _ _, Y : seen (l_dec_pss _) _ _ _ |- _ =>
          destruct (seen_pss_fun _ _ _ _ _ _ _ _ X Y) as (-> & -> & ->) end.
        match goal with X : In _ owf_hashes, Y : In _ owf_hashes |- _ => rewrite (owf_fun _ _ _ X Y) end. reflexivity.
      * match goal with I : In _ pss_shakes |- _ => clear - I; cbn in I; destruct I as [I|[I|[]]]; discriminate I end.
    + inversion H'; subst.
      * match goal with I : In _ rsa_hashes |- _ => rewrite (rsa_not_pss _ _ I) in P; discriminate P end.
      * match goal with I : In _ pss_shakes |- _ => clear - I; cbn in I; destruct I as [I|[I|[]]]; discriminate I end.
      * match goal with I : In _ pss_shakes, J : In _ pss_shakes |- _ => clear - I J; cbn in I, J end.
        repeat match goal with X : _ \/ _ |- _ => destruct X end; try contradiction; congruence.
  - destruct R' as (_ & _ & _ & X & _). congruence.
  - destruct R as (_ & _ & _ & X & _). congruence.
  - destruct R as (_ & _ & _ & _ & _ & hn & G & V), R' as (_ & _ & _ & _ & _ & hn' & G' & V'). congruence.
Qed.

(** A signed message is accepted under a public key exactly when the algorithm identifier fits the key and the
    signature verifies under the scheme it names. *)
Theorem sig_decides : forall L rnd m w a v k data, wf_kind (k_kind k) ->
  h_alg (m_header m) = Some a -> ~ In (a_oid a) secret_oids -> m_prot m = Some v -> v_public w = Some k -> part_of L m data ->
  (verify_pkimessage_protection L rnd m w = Ok tt <->
   (v_lw w = true -> In (a_oid a) lw_sig) /\ is_comp (k_kind k) = false /\
   exists s, sig_scheme L a (k_kind k) s /\ l_verify L s k v data = Ok tt).
Proof.
  intros L rnd m w a v k data W HA NS HP PK D. apply protected_part_ok in D.
  destruct (secret_facts _ NS) as (F1 & F2 & F3).
  set (core := if has (a_oid a) RSASSA_PSS_OID_2_NAME || has (a_oid a) TRAD_SIG_OID_2_NAME || has (a_oid a) PQ_SIG_OID_2_NAME
              || has (a_oid a) PQ_STATEFUL_OID_2_NAME then verify_pki_message_sig L m a v (Some k) else Err EValueError).
  assert (E : verify_pkimessage_protection L rnd m w = Ok tt <-> (v_lw w = true -> In (a_oid a) lw_sig) /\ core = Ok tt).
  { unfold verify_pkimessage_protection. rewrite HP, HA, F1, F2, F3, PK. cbn [bind]. destruct (v_lw w).
    - rewrite (lw_gate_eq _ _ HA NS). fold core. split; intros (X & Y); split; auto.
    - cbn [bind]. fold core. split; [intro Y; split; [discriminate|exact Y]|intros (_ & Y); exact Y]. }
  clear NS.
  rewrite E. apply and_iff_compat_l. unfold core, verify_pki_message_sig. rewrite D. cbn [bind].
  destruct (has (a_oid a) RSASSA_PSS_OID_2_NAME) eqn:HS; cbn [orb].
  - cbn [bind]. rewrite <- (pss_cases L k a data v HS). split.
    + intro H. apply bind_inv in H as ([] & G & H). apply guard_err_false in G.
      destruct (k_kind k); try discriminate G. repeat split; exact H.
    + intros (_ & KK & H). rewrite KK. exact H.
  - split.
    + intro H. destruct (has (a_oid a) TRAD_SIG_OID_2_NAME || has (a_oid a) PQ_SIG_OID_2_NAME || has (a_oid a) PQ_STATEFUL_OID_2_NAME) eqn:R;
        [|discriminate H]. apply bind_inv in H as (hn & G & H). apply (sig_exact L k a data v W) in H as (s & SS & V).
      split; [|eauto]. destruct (k_kind k) eqn:KK; try reflexivity. exfalso. inversion SS; subst.
      match goal with I : In _ (List.map fst COMPOSITE_SIG_HASH) |- _ => clear - R I; cbn in I; enum I; discriminate R end.
    + intros (NC & s & SS & V). destruct (scheme_route _ _ _ _ SS NC) as [X|(_ & _ & _ & _ & R & hn & G & _)]; [congruence|].
      rewrite R, G. cbn [bind]. apply (sig_exact L k a data v W). eauto.
Qed.


(** The same with the certificate of the message, for an identifier that fits its key. *)
Theorem sig_decides_cert : forall L rnd m w a v c l k s data,
  h_alg (m_header m) = Some a -> ~ In (a_oid a) secret_oids -> m_prot m = Some v -> v_public w = None ->
  m_certs m = (c :: l)%list -> c_pub c = Ok k -> part_of L m data -> single_key (k_kind k) = true ->
  sig_scheme L a (k_kind k) s ->
  (verify_pkimessage_protection L rnd m w = Ok tt <->
   (v_lw w = true -> In (a_oid a) lw_sig) /\ l_verify L s k v data = Ok tt).
Proof.
  intros L rnd m w a v c l k s data HA NS HP PK HC CP D SK SS. apply protected_part_ok in D.
  destruct (secret_facts _ NS) as (F1 & F2 & F3).
  set (core := if has (a_oid a) RSASSA_PSS_OID_2_NAME || has (a_oid a) TRAD_SIG_OID_2_NAME || has (a_oid a) PQ_SIG_OID_2_NAME
              || has (a_oid a) PQ_STATEFUL_OID_2_NAME then verify_pki_message_sig L m a v None else Err EValueError).
  assert (E : verify_pkimessage_protection L rnd m w = Ok tt <-> (v_lw w = true -> In (a_oid a) lw_sig) /\ core = Ok tt).
  { unfold verify_pkimessage_protection. rewrite HP, HA, F1, F2, F3, PK. cbn [bind]. destruct (v_lw w).
    - rewrite (lw_gate_eq _ _ HA NS). fold core. split; intros (X & Y); split; auto.
    - cbn [bind]. fold core. split; [intro Y; split; [discriminate|exact Y]|intros (_ & Y); exact Y]. }
  clear NS. rewrite E. apply and_iff_compat_l. unfold core, verify_pki_message_sig. rewrite D, HC, CP. cbn [bind].
  assert (NC : is_comp (k_kind k) = false) by (destruct (k_kind k); try reflexivity; discriminate SK).
  assert (SG : is_sign_kind (k_kind k) = true) by (destruct (k_kind k); try reflexivity; discriminate SK).
  destruct (has (a_oid a) RSASSA_PSS_OID_2_NAME) eqn:HS; cbn [orb bind].
  - split.
    + intro H. apply bind_inv in H as ([] & G & H). apply guard_err_false in G.
      assert (KK : k_kind k = KRsa) by (destruct (k_kind k); try discriminate G; reflexivity).
      destruct (proj1 (pss_cases L k a data v HS) (conj KK H)) as (s' & SS' & V').
      rewrite <- (scheme_fun _ _ _ _ _ SS' SS). exact V'.
    + intro V. destruct (proj2 (pss_cases L k a data v HS) (ex_intro _ s (conj SS V))) as (KK & H). rewrite KK. exact H.
  - destruct (scheme_route _ _ _ _ SS NC) as [X|(_ & _ & _ & _ & R & hn & G & VS)]; [congruence|].
    rewrite R, G, SG. cbn [bind guard]. unfold verify_signature.
    change (match hn with Some n => Some (last_part n) | None => None end) with (option_map last_part hn).
    rewrite VS. reflexivity.
Qed.

(** ** Round trip *)

Lemma scheme_not_secret : forall L a k s, sig_scheme L a k s -> is_comp k = false -> ~ In (a_oid a) secret_oids.
Proof.
  intros L a k s SS NC I. apply secret_sym in I. destruct (scheme_route _ _ _ _ SS NC) as [P|(_ & _ & X & _)]; [|congruence].
  unfold RSASSA_PSS_OID_2_NAME in P. apply has_In in P. cbn [List.map fst In] in P.
  destruct P as [E|[E|[E|[]]]]; rewrite <- E in I; discriminate I.
Qed.
(** The identifier a protection puts into the header, and the signature it makes. *)
Lemma protect_sig : forall L r1 r2 m prot o m' pa k, codec_ok L -> protect_pkimessage L r1 r2 m prot o = Ok m' ->
  protection_get prot = Ok pa -> o_key o = Some k -> wf_kind (k_kind k) -> single_key (k_kind k) = true -> o_bad o = false ->
  (pa = PA_SIGNATURE /\ o_rand o = false \/
   pa = PA_PSS /\ k_kind k = KRsa /\ In (dflt (o_hash o) "sha256") ["sha256"; "shake128"; "shake256"]) ->
  exists a s v data, h_alg (m_header m') = Some a /\ m_prot m' = Some v /\ part_of L m' data /\
    sig_scheme L a (k_kind k) s /\ sig_scheme L (wire_alg L a) (k_kind k) s /\ l_sign L r2 s k data = Ok v.
Proof.
  intros L r1 r2 m prot o m' pa k CK H G HK W SK NB HPA.
  destruct (protect_inv _ _ _ _ _ _ _ H) as (h & a & v & v2 & c & HA & HV & HB & EH & MH & MB & MP).
  rewrite NB in HB. inversion HB; subst v2. clear HB.
  unfold compute_pkimessage_protection in HV. apply bind_inv in HV as (u & _ & HV). rewrite HK in HV.
  unfold prepare_prot_alg_id in HA. rewrite G in HA. cbn [bind] in HA.
  assert (D : forall data, protected_part L (set_header m (set_alg h a)) = Ok data -> part_of L m' data).
  { intros data E. apply protected_part_ok in E as (b & B & P). exists b. rewrite MB, MH. split; [exact B|exact P]. }
  assert (HAL : h_alg (m_header m') = Some a) by (rewrite MH; reflexivity).
  assert (SG : is_sign_kind (k_kind k) = true) by (destruct (k_kind k); try reflexivity; discriminate SK).
  assert (ND : forall x, String.eqb x "id_dsa_with_sha256" && match k_kind k with KDsa => true | _ => false end = false)
    by (intro x; destruct (k_kind k); try discriminate SK; apply andb_false_r).
  destruct HPA as [(-> & NR)|(-> & KK & HH)].
  - rewrite HK, NR in HA. unfold prepare_signature_prot_alg_id in HA. apply bind_inv in HA as (ch & _ & HA).
    cbv zeta in HA. apply bind_inv in HA as ([] & _ & HA).
    destruct (prepare_sig_fits L r1 r2 k _ a [] _ CK W SK HA eq_refl) as (s0 & _ & _ & (_ & R2 & R3 & _) & _).
    rewrite R2, R3 in HV. apply bind_inv in HV as (data & ED & HV). rewrite SG, ND in HV. cbn [guard bind] in HV.
    destruct (prepare_sig_fits L r1 r2 k _ a data _ CK W SK HA eq_refl) as (s & S1 & S2 & _ & HL).
    exists a, s, v, data. rewrite <- HV. auto 10.
  - assert (KR : k_kind k = KRsa -> exists s, sig_scheme L a (k_kind k) s /\ sig_scheme L (wire_alg L a) (k_kind k) s /\
        forall data, sign_data_with_alg_id L r2 k a data = l_sign L r2 s k data).
    { intros _. rewrite KK. unfold sign_data_with_alg_id. rewrite KK. cbn [In] in HH.
      destruct HH as [E|[E|[E|[]]]]; rewrite <- E in HA; clear E.
      - assert (EA : a = Alg "id_RSASSA_PSS" (PPss (Alg "id_sha256" (PRaw [5; 0])) (Alg "id_mgf1" (PAlg (Alg "id_sha256" (PRaw [5; 0])))) 32))
          by (vm_compute in HA; congruence). subst a. exists (SPss "sha256" 32). split; [|split].
        + apply (SG_pss L _ (Alg "id_sha256" (PRaw [5; 0])) (Alg "id_mgf1" (PAlg (Alg "id_sha256" (PRaw [5; 0])))) (Alg "id_sha256" (PRaw [5; 0])) 32 "sha256").
          * now left.
          * cbn; tauto.
          * reflexivity.
          * now left.
          * reflexivity.
        + assert (WF : wf_params L (PPss (Alg "id_sha256" (PRaw [5; 0])) (Alg "id_mgf1" (PAlg (Alg "id_sha256" (PRaw [5; 0])))) 32) = true)
            by (cbn [wf_params wf_alg]; now rewrite (proj2 (ck_null _ CK))).
          unfold wire_alg. cbn [a_oid a_params wire].
          apply (SG_pss L _ (Alg "id_sha256" (PRaw [5; 0])) (Alg "id_mgf1" (PRaw (l_enc L (PAlg (Alg "id_sha256" (PRaw [5; 0])))))) (Alg "id_sha256" (PRaw [5; 0])) 32 "sha256").
          * right. eexists; split; [now left|]. rewrite (ck_pss _ CK _ _ _ WF). reflexivity.
          * cbn; tauto.
          * reflexivity.
          * right. eexists; split; [now left|]. cbn [a_params]. rewrite (ck_alg _ CK); [reflexivity|].
            cbn [wf_params wf_alg]. exact (proj2 (ck_null _ CK)).
          * reflexivity.
        + intro data. unfold sign_data. rewrite KK. reflexivity.
      - assert (EA : a = Alg "id_RSASSA_PSS_SHAKE128" PAbsent) by (vm_compute in HA; congruence). subst a.
        exists (SPssShake "shake128" 32). rewrite wire_absent. split; [apply SG_shake; now left|].
        split; [apply SG_shake; now left|]. intro data. unfold sign_data. rewrite KK. reflexivity.
      - assert (EA : a = Alg "id_RSASSA_PSS_SHAKE256" PAbsent) by (vm_compute in HA; congruence). subst a.
        exists (SPssShake "shake256" 64). rewrite wire_absent. split; [apply SG_shake; right; now left|].
        split; [apply SG_shake; right; now left|]. intro data. unfold sign_data. rewrite KK. reflexivity. }
    assert (AO : In (a_oid a) ["id_RSASSA_PSS"; "id_RSASSA_PSS_SHAKE128"; "id_RSASSA_PSS_SHAKE256"]).
    { clear - HA HH. cbn [In] in HH. destruct HH as [E|[E|[E|[]]]]; rewrite <- E in HA; inversion HA; cbn; tauto. }
    assert (RT : String.eqb (a_oid a) "id_DHBasedMac" = false /\ has (a_oid a) SYMMETRIC_PROT_ALGO = false).
    { clear - AO. cbn [In] in AO. destruct AO as [E|[E|[E|[]]]]; rewrite <- E; split; reflexivity. }
    rewrite (proj1 RT), (proj2 RT) in HV. apply bind_inv in HV as (data & ED & HV). rewrite SG, ND in HV. cbn [guard bind] in HV.
    destruct (KR KK) as (s & S1 & S2 & S3). exists a, s, v, data. rewrite S3 in HV. auto 10.
Qed.

Theorem sig_roundtrip : forall L r1 r2 r3 m prot o m' pa k w, lib_ok L -> protect_pkimessage L r1 r2 m prot o = Ok m' ->
  protection_get prot = Ok pa -> o_key o = Some k -> wf_kind (k_kind k) -> single_key (k_kind k) = true -> o_bad o = false ->
  (pa = PA_SIGNATURE /\ o_rand o = false \/
   pa = PA_PSS /\ k_kind k = KRsa /\ In (dflt (o_hash o) "sha256") ["sha256"; "shake128"; "shake256"]) ->
  v_public w = Some k \/ (v_public w = None /\ exists c l, m_certs m' = (c :: l)%list /\ c_pub c = Ok k) ->
  exists a, h_alg (m_header m') = Some a /\
  (verify_pkimessage_protection L r3 m' w = Ok tt <-> (v_lw w = true -> In (a_oid a) lw_sig)) /\
  (verify_pkimessage_protection L r3 (transport L m') w = Ok tt <-> (v_lw w = true -> In (a_oid a) lw_sig)).
Proof.
  intros L r1 r2 r3 m prot o m' pa k w HL H G HK W SK NB HPA HW.
  destruct (protect_sig L r1 r2 m prot o m' pa k (lk_codec _ HL) H G HK W SK NB HPA) as (a & s & v & data & HA & MP & D & S1 & S2 & HS).
  assert (NC : is_comp (k_kind k) = false) by (destruct (k_kind k); try reflexivity; discriminate SK).
  pose proof (scheme_not_secret _ _ _ _ S1 NC) as NS. pose proof (transport_part _ _ _ (lk_part _ HL) D) as DT.
  pose proof (pm_sig _ (lk_prim _ HL) _ _ _ _ _ HS) as V.
  assert (HAT : h_alg (m_header (transport L m')) = Some (wire_alg L a))
    by (cbn [transport set_header m_header wire_header h_alg]; now rewrite HA).
  assert (OT : a_oid (wire_alg L a) = a_oid a) by reflexivity.
  exists a. split; [exact HA|]. destruct HW as [PK|(PK & c & l & MC & CP)].
  - rewrite (sig_decides L r3 m' w a v k data W HA NS MP PK D).
    rewrite (sig_decides L r3 (transport L m') w (wire_alg L a) v k data W HAT ltac:(rewrite OT; exact NS) MP PK DT).
    rewrite OT. split; (split; [intros (X & _); exact X|intro X; split; [exact X|split; [exact NC|eauto]]]).
  - rewrite (sig_decides_cert L r3 m' w a v c l k s data HA NS MP PK MC CP D SK S1).
    rewrite (sig_decides_cert L r3 (transport L m') w (wire_alg L a) v c l k s data HAT ltac:(rewrite OT; exact NS) MP PK MC CP DT SK S2).
    rewrite OT. split; (split; [intros (X & _); exact X|intro X; split; [exact X|exact V]]).
Qed.

Lemma sig_has_part : forall L rnd m w a v, h_alg (m_header m) = Some a -> ~ In (a_oid a) secret_oids -> m_prot m = Some v ->
  verify_pkimessage_protection L rnd m w = Ok tt -> exists d, part_of L m d.
Proof.
  intros L rnd m w a v HA NS HP V. destruct (secret_facts _ NS) as (F1 & F2 & F3). clear NS.
  unfold verify_pkimessage_protection in V. rewrite HP, HA, F1, F2, F3 in V. cbn [bind] in V.
  apply bind_inv in V as (? & _ & V).
  destruct (has (a_oid a) RSASSA_PSS_OID_2_NAME || has (a_oid a) TRAD_SIG_OID_2_NAME || has (a_oid a) PQ_SIG_OID_2_NAME
              || has (a_oid a) PQ_STATEFUL_OID_2_NAME); [|discriminate V].
  unfold verify_pki_message_sig in V. apply bind_inv in V as (d & D & _). exists d. now apply protected_part_ok.
Qed.
(** Two messages accepted with one signature and one key. *)
Theorem sig_tamper : forall L rnd m1 m2 w a1 a2 v k, lib_ok L -> wf_kind (k_kind k) ->
  h_alg (m_header m1) = Some a1 -> ~ In (a_oid a1) secret_oids -> m_prot m1 = Some v ->
  h_alg (m_header m2) = Some a2 -> ~ In (a_oid a2) secret_oids -> m_prot m2 = Some v ->
  v_public w = Some k -> wf_header L (m_header m1) = true -> wf_header L (m_header m2) = true ->
  verify_pkimessage_protection L rnd m1 w = Ok tt -> verify_pkimessage_protection L rnd m2 w = Ok tt ->
  (wire_header L (m_header m1) = wire_header L (m_header m2) /\ m_body m1 = m_body m2) \/
  (exists d1 d2 s1 s2, d1 <> d2 /\ part_of L m1 d1 /\ part_of L m2 d2 /\
     l_verify L s1 k v d1 = Ok tt /\ l_verify L s2 k v d2 = Ok tt).
Proof.
  intros L rnd m1 m2 w a1 a2 v k LO WK A1 N1 P1 A2 N2 P2 VP W1 W2 V1 V2.
  assert (D : forall m a, h_alg (m_header m) = Some a -> ~ In (a_oid a) secret_oids -> m_prot m = Some v ->
    verify_pkimessage_protection L rnd m w = Ok tt -> exists d s, part_of L m d /\ l_verify L s k v d = Ok tt).
  { intros m a A N P V. assert (X : exists d, part_of L m d).
    { apply (sig_has_part L rnd m w a v A N P V). }
    destruct X as (d & X). destruct (proj1 (sig_decides L rnd m w a v k d WK A N P VP X) V) as (_ & _ & s & _ & S). exists d, s. auto. }
  destruct (D m1 a1 A1 N1 P1 V1) as (d1 & s1 & (b1 & B1 & Q1) & S1).
  destruct (D m2 a2 A2 N2 P2 V2) as (d2 & s2 & (b2 & B2 & Q2) & S2).
  destruct (list_eq_dec Z.eq_dec d1 d2) as [<-|NE].
  - left. destruct (pt_inj L (lk_part L LO) _ _ _ _ _ W1 W2 Q1 Q2) as (E & <-). split; [exact E|congruence].
  - right. exists d1, d2, s1, s2. repeat split; auto; [exists b1|exists b2]; auto.
Qed.
