(** Proofs about certificate request processing: the single steps. *)
From Coq Require Import String Ascii Lia Permutation.
From Verif Require Import Prelude PreludeFacts PyStr PyStrProofs CompLoadModel HdrModel ProtTab ProtModel ProtSpec ProtMac ProtSig ProtHybSpec ProtHybProofs PopModel PopSpec.
Open Scope string_scope.
Open Scope Z_scope.
Local Notation length := List.length.

Lemma catch_ok : forall A p e (r : result A) x, catch p e r = Ok x <-> r = Ok x.
Proof. intros A p e [y|y] x; cbn [catch]; split; intro H; try congruence; destruct (p y); discriminate. Qed.
Lemma tmpl_key_some : forall E b t p, tmpl_key E b t = Ok (Some p) <-> exists d, t_key t = TKey d /\ e_load E d = Ok p.
Proof.
  intros E b t p. unfold tmpl_key. destruct (t_key t) as [|a|d].
  - split; [destruct b; discriminate|intros (d & H & _); discriminate].
  - split; [destruct b; discriminate|intros (d & H & _); discriminate].
  - split.
    + intro H. apply bind_inv in H as (x & H1 & H2). apply catch_ok in H1. exists d. split; [reflexivity|congruence].
    + intros (d' & H1 & H2). inversion H1; subst d'. rewrite H2. reflexivity.
Qed.
Lemma tmpl_key_none : forall E t, tmpl_key E false t = Ok None <-> forall d, t_key t <> TKey d.
Proof.
  intros E t. unfold tmpl_key. destruct (t_key t) as [|a|d]; split; intro H; try reflexivity; try discriminate.
  - apply bind_inv in H as (x & _ & H). discriminate.
  - now destruct (H d).
Qed.
Lemma req_key_ok : forall E q p, req_key E q = Ok p <-> exists d, t_key (r_tmpl (q_req q)) = TKey d /\ e_load E d = Ok p.
Proof.
  intros E q p. unfold req_key. split.
  - intro H. apply bind_inv in H as ([x|] & H1 & H2); [|discriminate]. apply tmpl_key_some in H1. inversion H2; subst. exact H1.
  - intro H. apply (tmpl_key_some E true) in H. rewrite H. reflexivity.
Qed.
Lemma req_key_asks : forall E q k, req_key E q = Ok (Pub k) <-> asks_for E q k.
Proof. intros. apply req_key_ok. Qed.
Lemma asks_fun : forall E q k k', asks_for E q k -> asks_for E q k' -> k = k'.
Proof. intros E q k k' (d & H1 & H2) (d' & H3 & H4). rewrite H1 in H3. inversion H3; subst. congruence. Qed.
Definition bodied (m : request) : Prop := In (b_name m) ["ir"; "cr"; "kur"; "ccr"].
Lemma get_req_ok : forall m i q, bodied m -> (get_req m i = Ok q <-> nth_error (b_reqs m) i = Some q).
Proof.
  intros m i q B. unfold get_req. rewrite (proj2 (str_mem_In _ _) B). destruct (nth_error (b_reqs m) i); split; congruence.
Qed.
Lemma get_req_inv : forall m i q, get_req m i = Ok q -> bodied m /\ nth_error (b_reqs m) i = Some q.
Proof.
  intros m i q H. unfold get_req in H. destruct (str_mem (b_name m) _) eqn:B; [|discriminate]. apply str_mem_In in B.
  split; [exact B|]. destruct (nth_error (b_reqs m) i); congruence.
Qed.
Lemma own_bodied : forall m, In (b_name m) own_bodies -> bodied m.
Proof. intros m H. unfold bodied. cbn [own_bodies In] in *. tauto. Qed.
Lemma own_in : forall m, In (b_name m) own_bodies -> str_mem (b_name m) ["ir"; "cr"; "kur"; "crr"] = true.
Proof. intros m H. apply str_mem_In. cbn [own_bodies In] in *. tauto. Qed.

(** ** Proof of possession *)

Lemma no_dsa : forall L a k data v, sig_valid L a k data v -> is_dsa (k_kind k) = false.
Proof. intros L a k data v (s & H & _). inversion H; reflexivity. Qed.
Lemma pop_sig_exact : forall E m i q, keys_known E -> bodied m -> nth_error (b_reqs m) i = Some q ->
  (verify_pop_signature E m i = Ok tt <-> signed E q).
Proof.
  intros E m i q W B N. unfold verify_pop_signature. rewrite (proj2 (get_req_ok _ _ _ B) N). cbn [bind]. split.
  - intro H. set (r := match q_popo q with Some (PoSig a v) => _ | _ => _ end) in H.
    assert (R : r = Ok tt) by (destruct r as [[]|[]]; try discriminate H; reflexivity). clear H. unfold r in R. clear r.
    destruct (q_popo q) as [[|a v|p|p]|] eqn:P; try discriminate R.
    apply bind_inv in R as ([k|] & H1 & R); [|discriminate]. apply req_key_asks in H1.
    apply bind_inv in R as ([] & H2 & R). apply bind_inv in R as ([] & H3 & R).
    destruct (e_enc E (q_req q)) as [data|] eqn:D; [|discriminate]. destruct H1 as (d & H1 & HL).
    apply valid_exact in R; [|exact (W _ _ HL)]. exists k, a, v, data. split; [exists d; auto|]. auto.
  - intros (k & a & v & data & A & P & D & V). rewrite P, (proj2 (req_key_asks _ _ _) A). cbn [bind].
    rewrite (valid_sign_kind _ _ _ _ _ V), (no_dsa _ _ _ _ _ V). cbn [negb guard bind]. rewrite D.
    destruct A as (d & _ & HL). now rewrite (proj2 (valid_exact _ _ _ _ _ (W _ _ HL)) V).
Qed.
Lemma sig_pop_exact : forall E m i q, keys_known E -> In (b_name m) own_bodies -> nth_error (b_reqs m) i = Some q ->
  (verify_sig_pop E m i = Ok tt <-> signed E q).
Proof.
  intros E m i q W B N. unfold verify_sig_pop. rewrite (own_in _ B), (proj2 (get_req_ok _ _ _ (own_bodied _ B)) N). cbn [bind]. split.
  - intro H. destruct (q_popo q) as [[|a v|p|p]|]; try discriminate H. apply catch_ok in H.
    now apply (pop_sig_exact E m i q W (own_bodied _ B) N).
  - intro S. pose proof S as (k & a & v & data & _ & P & _). rewrite P. apply catch_ok.
    now apply (pop_sig_exact E m i q W (own_bodied _ B) N).
Qed.
Lemma in_list_spec : forall c l, cert_in_list c l = true <-> exists x, In x l /\ c_der x = c_der c.
Proof.
  intros c l. unfold cert_in_list. rewrite existsb_exists. split; intros (x & I & H); exists x; (split; [exact I|]).
  - apply bytes_eqb_eq in H. congruence.
  - rewrite H. apply bytes_eqb_refl.
Qed.
Lemma ra_exact : forall E m o, verify_ra_verified E m o = Ok tt <-> (o_ra o = true -> from_ra E m o).
Proof.
  intros E m o. unfold verify_ra_verified. destruct (o_ra o); cbn [negb]; [|split; [discriminate|reflexivity]].
  destruct (b_certs m) as [|c rest] eqn:C.
  - split; [discriminate|]. intro H. destruct (H eq_refl) as (c & r & H1 & _). congruence.
  - rewrite <- C. split.
    + intros H _. apply bind_inv in H as ([] & H1 & H). apply guard_err_false in H1. apply in_list_spec in H1.
      apply bind_inv in H as ([] & H2 & H). apply catch_ok in H2. apply bind_inv in H as ([] & H3 & H). apply catch_ok in H3.
      apply bind_inv in H as ([] & H4 & H). apply guard_err_false in H4.
      exists c, rest. split; [exact C|]. split; [exact H1|]. split; [exact H2|]. split; [exact H3|]. split.
      * intros x HX. rewrite HX in H4. now destruct (e_self E x).
      * intro HO. rewrite HO in H. now apply catch_ok in H.
    + intro H. destruct (H eq_refl) as (c' & r' & H1 & H2 & H3 & H4 & H5 & H6). rewrite C in H1. inversion H1; subst c' r'.
      rewrite (proj2 (in_list_spec _ _) H2). cbn [guard bind]. rewrite (proj2 (catch_ok _ _ _ _ _) H3). cbn [bind].
      rewrite (proj2 (catch_ok _ _ _ _ _) H4). cbn [bind].
      destruct (e_chain E (b_certs m) c) as [|x [|y z]] eqn:EC; cbn [negb guard bind].
      * destruct (o_chain o); [apply catch_ok; auto|reflexivity].
      * rewrite (H5 x eq_refl). cbn [negb guard bind]. destruct (o_chain o); [apply catch_ok; auto|reflexivity].
      * destruct (o_chain o); [apply catch_ok; auto|reflexivity].
Qed.
Lemma kga_true : forall E m i q b, bodied m -> nth_error (b_reqs m) i = Some q ->
  (is_for_kga E m i = Ok b <-> (b = false /\ q_popo q <> None) \/ (b = true /\ central E q)).
Proof.
  intros E m i q b B N. unfold is_for_kga. rewrite (proj2 (get_req_ok _ _ _ B) N). cbn [bind]. unfold central, kga_key.
  destruct (q_popo q) as [p|] eqn:P.
  - split; [intro H; left; split; congruence|]. intros [(-> & _)|(_ & H & _)]; [reflexivity|discriminate].
  - destruct (t_key (r_tmpl (q_req q))) as [|a|d] eqn:T.
    + cbn [bind]. split; [intro H; right; split; [congruence|auto]|]. intros [(_ & H)|(-> & _)]; [congruence|reflexivity].
    + split.
      * intro H. apply bind_inv in H as ([] & H1 & H2). right. split; [congruence|]. split; [reflexivity|]. right. exists a. auto.
      * intros [(_ & H)|(-> & _ & [H|(a' & H1 & H2)])]; [congruence|discriminate|]. inversion H1; subst a'. rewrite H2. reflexivity.
    + cbn [bind]. split; [discriminate|]. intros [(_ & H)|(_ & _ & [H|(a & H & _)])]; [congruence|discriminate|discriminate].
Qed.
Lemma is_kem_spec : forall k, is_kem (Pub k) = true <-> kem_class (k_kind k).
Proof.
  intros [kk i]. unfold is_kem, kem_class. cbn [k_kind]. split.
  - destruct kk; try discriminate. eauto.
  - intros (x & ->). reflexivity.
Qed.
Lemma is_ecdh_spec : forall k, is_ecdh (Pub k) = true <-> ecdh_class (k_kind k).
Proof.
  intros [kk i]. unfold is_ecdh, ecdh_class. cbn [k_kind]. split.
  - destruct kk; try discriminate; auto.
  - intros [->|[->| ->]]; reflexivity.
Qed.
Lemma popo_exact : forall E m i o q w, keys_known E -> In (b_name m) own_bodies -> nth_error (b_reqs m) i = Some q ->
  nth_error (b_reqs m) 0 = Some w -> (verify_popo E m i o = Ok tt <-> pop_ok E m o w q).
Proof.
  intros E m i o q w W B N N0. pose proof (own_bodied _ B) as BB. unfold verify_popo.
  rewrite (own_in _ B). cbn [negb]. rewrite (proj2 (get_req_ok _ _ _ BB) N). cbn [bind]. split.
  - intro H. apply bind_inv in H as (b & H1 & H). apply (kga_true _ _ _ _ _ BB N) in H1 as [(-> & P)|(-> & C)].
    + destruct (q_popo q) as [[|a v|p|p]|] eqn:Q; [| | | |congruence].
      * apply PO_ra; [exact Q|]. now apply ra_exact.
      * apply (PO_signed _ _ _ _ _ a v Q). now apply (sig_pop_exact E m 0 w W B N0).
      * apply bind_inv in H as ([k|] & H1 & H); [|discriminate]. apply guard_err_false in H.
        apply (PO_encipher _ _ _ _ _ p k Q); [now apply req_key_asks|now apply is_kem_spec].
      * apply bind_inv in H as ([k|] & H1 & H); [|discriminate]. apply guard_err_false in H.
        apply (PO_agree _ _ _ _ _ p k Q); [now apply req_key_asks|now apply is_ecdh_spec].
    + now apply PO_central.
  - intros [C|Q R|a v Q S|p k Q A K|p k Q A K].
    + rewrite (proj2 (kga_true _ _ _ _ true BB N)); [reflexivity|auto].
    + rewrite (proj2 (kga_true _ _ _ _ false BB N)); [|left; split; congruence]. cbn [bind]. rewrite Q. now apply ra_exact.
    + rewrite (proj2 (kga_true _ _ _ _ false BB N)); [|left; split; congruence]. cbn [bind]. rewrite Q.
      now apply (sig_pop_exact E m 0 w W B N0).
    + rewrite (proj2 (kga_true _ _ _ _ false BB N)); [|left; split; congruence]. cbn [bind]. rewrite Q.
      rewrite (proj2 (req_key_asks _ _ _) A). cbn [bind]. now rewrite (proj2 (is_kem_spec _) K).
    + rewrite (proj2 (kga_true _ _ _ _ false BB N)); [|left; split; congruence]. cbn [bind]. rewrite Q.
      rewrite (proj2 (req_key_asks _ _ _) A). cbn [bind]. now rewrite (proj2 (is_ecdh_spec _) K).
Qed.

(** ** Consistency of key and algorithm *)

Lemma ed_back : rlookup "ed25519" TRAD_SIG_OID_2_NAME = Some "id_Ed25519" /\ rlookup "ed448" TRAD_SIG_OID_2_NAME = Some "id_Ed448".
Proof. split; vm_compute; reflexivity. Qed.
Lemma has_none : forall (A : Type) o (l : list (string * A)), has o l = false -> lookup o l = None.
Proof. intros A o l H. unfold has in H. now destruct (lookup o l). Qed.
Definition chk_stf (o : oid) : bool :=
  match lookup o COMPOSITE_SIG_OID_TO_NAME with None => is_ok (get_hash_from_oid o true) | _ => false end.
Lemma stf_ok : forall o, In o stateful_oids -> lookup o COMPOSITE_SIG_OID_TO_NAME = None /\ exists h, get_hash_from_oid o true = Ok h.
Proof.
  intros o I. assert (A : forallb chk_stf stateful_oids = true) by (vm_compute; reflexivity).
  pose proof (proj1 (forallb_forall _ _) A _ I) as C. unfold chk_stf in C.
  destruct (lookup o COMPOSITE_SIG_OID_TO_NAME); [discriminate|]. split; [reflexivity|].
  destruct (get_hash_from_oid o true); [eauto|discriminate].
Qed.
Lemma consistent_exact : forall o k, wf_kind k -> (consistent o k = Ok tt <-> fits o k).
Proof.
  intros o k W. unfold consistent. split.
  - destruct (lookup o COMPOSITE_SIG_OID_TO_NAME) as [n|] eqn:C.
    + destruct (comp_lookup _ _ C) as (-> & I). destruct k as [| | | | | | | | | | ]; try discriminate.
      intro H. destruct (if endswith "-pss" n then _ else _) as [x|e] eqn:G; [|destruct e; discriminate].
      apply guard_err_false in H. apply String.eqb_eq in H. subst x. now constructor.
    + intro H. unfold check_consistency in H. apply bind_inv in H as (h & HG & H).
      assert (HG' : get_hash_from_oid o true = Ok h) by (destruct (get_hash_from_oid o true) as [y|[]]; congruence). clear HG.
      destruct k as [| | | | | | |n|x| | ]; try discriminate H.
      * unfold check_trad_sig_alg_id in H. apply guard_err_false in H. apply is_trad in H. apply trad_rsa in H. now econstructor; eauto.
      * unfold check_trad_sig_alg_id in H. apply guard_err_false in H. apply is_trad in H. apply trad_ec in H. now econstructor; eauto.
      * unfold check_trad_sig_alg_id in H. apply guard_err_false in H. apply is_trad in H.
        assert (o = "id_Ed25519") by (pose proof (proj1 ed_back); congruence). subst o. constructor.
      * unfold check_trad_sig_alg_id in H. apply guard_err_false in H. apply is_trad in H.
        assert (o = "id_Ed448") by (pose proof (proj2 ed_back); congruence). subst o. constructor.
      * cbn [wf_kind] in W. assert (HP : has o PQ_OID_2_NAME || has o TRAD_SIG_OID_2_NAME = true).
        { apply orb_true_iff. left. apply bind_inv in H as ([] & E1 & E2). apply guard_err_false in E1, E2. apply str_mem_In in E1.
          apply String.eqb_eq in E2. subst o. apply has_In. unfold PQ_OID_2_NAME, by_oid. rewrite map_map. cbn [fst]. now apply in_map. }
        assert (HK : check_consistency o (KPq n) = Ok tt) by (unfold check_consistency; rewrite HG'; exact H).
        destruct (consistent_pq _ _ _ W HP C HG' HK) as [(_ & ->)|(y & _ & I & ->)]; now constructor.
      * apply guard_err_false in H. apply String.eqb_eq in H. subst x. now constructor.
  - intro F. destruct F as [o h I|o h I| | |n I|n h I|o I|n x y I G].
    + destruct (rsa_facts _ _ I) as (F1 & F2 & F3 & F4 & F5 & F6 & F7). rewrite F4. unfold check_consistency, check_trad_sig_alg_id.
      rewrite F1. cbn [bind]. now rewrite (rsa_back _ _ I), String.eqb_refl.
    + destruct (ec_facts _ _ I) as (F1 & F2 & F3 & F4 & F5 & F6 & F7). rewrite F4. unfold check_consistency, check_trad_sig_alg_id.
      rewrite F1. cbn [bind]. now rewrite (ec_back _ _ I), String.eqb_refl.
    + vm_compute; reflexivity.
    + vm_compute; reflexivity.
    + destruct (pq_ok _ I) as (F1 & F2 & F3 & F4 & F5 & F6 & F7 & F8). rewrite F6.
      unfold check_consistency. rewrite F3. cbn [bind]. rewrite app_nil_r_s. now rewrite (proj2 (str_mem_In _ _) F1), String.eqb_refl.
    + destruct (pre_ok _ _ I) as ((F1 & F2 & F3 & F4 & F5 & F6 & F7 & F8) & _).
      rewrite F6. unfold check_consistency. rewrite F3. cbn [bind].
      match goal with |- context [str_mem ?x PQ_NAMES] => change x with (n ++ "-" ++ h) end.
      now rewrite (proj2 (str_mem_In _ _) F1), String.eqb_refl.
    + destruct (stf_ok _ I) as (F1 & h & F2). rewrite F1. unfold check_consistency. rewrite F2. cbn [bind]. now rewrite String.eqb_refl.
    + rewrite (comp_back _ I), G. now rewrite String.eqb_refl.
Qed.
Lemma fits_sign : forall o k, fits o k -> is_sign_kind k = true.
Proof. intros o k H. now destruct H. Qed.
Lemma fits_dsa : forall o k, fits o k -> k <> KDsa.
Proof. intros o k H. now destruct H. Qed.
Lemma pss_never : forall o k, In o pss_oids -> ~ fits o k.
Proof.
  intros o k I F. destruct F as [o h I'|o h I'| | |n I'|n h I'|o I'|n x y I' G].
  - apply rsa_not_pss in I'. cbn [pss_oids In] in I. enum I; discriminate I'.
  - apply ec_not_pss in I'. cbn [pss_oids In] in I. enum I; discriminate I'.
  - cbn [pss_oids In] in I. enum I; discriminate.
  - cbn [pss_oids In] in I. enum I; discriminate.
  - cbn [pss_oids In] in I. enum I; discriminate.
  - cbn [pss_oids In] in I. enum I; discriminate.
  - cbn [pss_oids stateful_oids In] in I, I'. repeat (destruct I' as [<-|I']; [enum I; discriminate|]). destruct I'.
  - cbn [pss_oids In] in I. enum I; discriminate.
Qed.
(** A valid signature is one of a fitting algorithm, PSS and foreign composite identifiers aside. *)
Lemma valid_fits : forall L a k data v, sig_valid L a k data v -> ~ In (a_oid a) pss_oids -> gives (k_kind k) (a_oid a) -> fits (a_oid a) (k_kind k).
Proof.
  intros L a k data v (s & H & _) N G. destruct H as [o p h I Nl|o h I| | |p ha mgf ma n h S1 I M S2 Q|o h n I|n I|n h I|o I|n x y I]; cbn [a_oid] in *.
  - now econstructor; eauto.
  - now econstructor; eauto.
  - constructor.
  - constructor.
  - destruct N. now left.
  - exfalso. apply N. cbn [pss_shakes In] in I. enum I; cbn [pss_oids In]; tauto.
  - now constructor.
  - now constructor.
  - now constructor.
  - destruct G as (n' & E & G). assert (n' = n) by (unfold comp in E; inversion E; reflexivity). subst n'. now constructor.
Qed.
