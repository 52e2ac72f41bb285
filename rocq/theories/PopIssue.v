(** Proofs about certificate request processing: issuing and batches. *)
From Coq Require Import String Ascii Lia Permutation.
From Verif Require Import Prelude PreludeFacts PyStr PyStrProofs CompLoadModel HdrModel ProtTab ProtModel ProtSpec ProtMac ProtSig ProtHybSpec ProtHybProofs PopModel PopSpec PopProofs.
Open Scope string_scope.
Open Scope Z_scope.
Local Notation length := List.length.

(** ** Registration information *)

Lemma first_some : forall t l v, first_of t l = Some v <-> the_first t l v.
Proof.
  intros t l v. unfold first_of. induction l as [|c r IH]; cbn [find].
  - split; [discriminate|]. intros (l1 & c & l2 & H & _). destruct l1; discriminate.
  - destruct (String.eqb (ct_type c) t) eqn:C.
    + apply String.eqb_eq in C. split.
      * intro H. inversion H; subst v. exists [], c, r. split; [reflexivity|]. split; [exact C|]. split; [reflexivity|]. intros d [].
      * intros (l1 & c' & l2 & H & T & V & F). destruct l1 as [|x l1]; inversion H; subst.
        -- reflexivity.
        -- destruct (F x); [now left|]. reflexivity.
    + rewrite IH. apply String.eqb_neq in C. split.
      * intros (l1 & c' & l2 & -> & T & V & F). exists (c :: l1), c', l2. repeat split; auto.
        intros d [<-|I]; [exact C|now apply F].
      * intros (l1 & c' & l2 & H & T & V & F). destruct l1 as [|x l1]; inversion H; subst; [congruence|].
        exists l1, c', l2. repeat split; auto. intros d I. apply F. now right.
Qed.
Lemma first_none : forall t l, first_of t l = None <-> no_entry t l.
Proof.
  intros t l. unfold first_of, no_entry. induction l as [|c r IH]; cbn [find].
  - split; [intros _ d []|reflexivity].
  - destruct (String.eqb (ct_type c) t) eqn:C.
    + apply String.eqb_eq in C. split; [discriminate|]. intro H. destruct (H c (or_introl eq_refl) C).
    + apply String.eqb_neq in C. rewrite IH. split; [intros H d [<-|I]; auto|]. intros H d I. apply H. now right.
Qed.
Lemma unique_spec : forall l, unique_types l = true <-> distinct l.
Proof.
  induction l as [|c r IH]; cbn [unique_types]; unfold distinct; cbn [List.map].
  - split; [intros _; constructor|reflexivity].
  - rewrite andb_true_iff, IH, negb_true_iff. unfold distinct. split.
    + intros (H1 & H2). constructor; [|exact H2]. intro I. apply in_map_iff in I as (d & E & I).
      assert (X : existsb (fun d => String.eqb (ct_type d) (ct_type c)) r = true)
        by (apply existsb_exists; exists d; split; [exact I|now apply String.eqb_eq]). congruence.
    + intro H. inversion H; subst. split; [|assumption].
      destruct (existsb _ r) eqn:X; [|reflexivity]. apply existsb_exists in X as (d & I & E). apply String.eqb_eq in E.
      destruct H2. apply in_map_iff. exists d. auto.
Qed.
Lemma tkey_eqb_eq : forall a b, tkey_eqb a b = true <-> a = b.
Proof.
  intros [|a|a] [|b|b]; cbn [tkey_eqb]; split; intro H; try discriminate; try reflexivity.
  - apply bytes_eqb_eq in H. now subst.
  - inversion H. apply bytes_eqb_refl.
  - apply bytes_eqb_eq in H. now subst.
  - inversion H. apply bytes_eqb_refl.
Qed.
Lemma same_key_exact : forall g a, same_request_key g a = Ok tt <->
  r_id a = r_id g /\ (t_key (r_tmpl g) = TAbsent \/ t_key (r_tmpl a) = t_key (r_tmpl g)).
Proof.
  intros g a. unfold same_request_key. split.
  - intro H. apply bind_inv in H as ([] & H1 & H). apply guard_err_false in H1. apply Z.eqb_eq in H1. split; [congruence|].
    destruct (t_key (r_tmpl g)) as [|x|x]; [now left| |]; right; destruct (t_key (r_tmpl a)); try discriminate H;
      apply guard_err_false in H; apply tkey_eqb_eq in H; congruence.
  - intros (-> & H). rewrite Z.eqb_refl. cbn [guard bind]. destruct H as [-> | ->]; [reflexivity|].
    destruct (t_key (r_tmpl g)); [reflexivity| |]; apply guard_err_false; now apply tkey_eqb_eq.
Qed.
Lemma alt_exact : forall E q l alt, q_info q = Some l -> (alt_request E q l = Ok alt <->
  no_entry "id_regInfo_certReq" l /\ alt = None \/ exists r, alternative E q r /\ alt = Some r).
Proof.
  intros E q l alt Q. unfold alt_request. destruct (first_of "id_regInfo_certReq" l) as [v|] eqn:F.
  - split.
    + intro H. apply bind_inv in H as ([] & H1 & H). apply guard_err_false in H1. apply unique_spec in H1.
      destruct (e_dec E v) as [[r [|x y]]|] eqn:D; try discriminate. apply bind_inv in H as ([] & H2 & H).
      apply same_key_exact in H2 as (H2 & H3). right. exists r. split; [|congruence].
      exists l, v. repeat split; auto. now apply first_some.
    + intros [(N & ->)|(r & (l' & v' & Q' & F' & D & X & I & K) & ->)].
      * apply first_none in N. congruence.
      * assert (l' = l) by congruence. subst l'. apply first_some in F'. assert (v' = v) by congruence. subst v'.
        rewrite (proj2 (unique_spec _) D). cbn [guard bind]. rewrite X. rewrite (proj2 (same_key_exact (q_req q) r)); [reflexivity|auto].
  - split.
    + intro H. left. split; [now apply first_none|congruence].
    + intros [(_ & ->)|(r & (l' & v' & Q' & F' & _) & ->)]; [reflexivity|].
      assert (l' = l) by congruence. subst l'. apply first_some in F'. congruence.
Qed.
Lemma reg_info_exact : forall E q alt, reg_info E q = Ok alt <-> registered E q alt.
Proof.
  intros E q alt. unfold reg_info, registered. destruct (q_info q) as [l|] eqn:Q; [|split; congruence]. split.
  - intro H. apply bind_inv in H as (a & H1 & H). apply bind_inv in H as ([] & H2 & H). assert (a = alt) by congruence. subst a.
    split; [now apply (alt_exact E q l alt Q)|]. destruct (first_of "id_regInfo_utf8Pairs" l) as [v|] eqn:F.
    + apply bind_inv in H2 as ([] & H3 & H4). apply guard_err_false in H3. right. exists v.
      split; [now apply first_some|]. split; [now apply unique_spec|exact H4].
    + left. now apply first_none.
  - intros (H1 & H2). apply (alt_exact E q l alt Q) in H1. rewrite H1. cbn [bind].
    destruct H2 as [N|(v & F & D & U)].
    + rewrite (proj2 (first_none _ _) N). reflexivity.
    + rewrite (proj2 (first_some _ _ _) F), (proj2 (unique_spec _) D). cbn [guard bind]. now rewrite U.
Qed.

(** ** Templates *)

Lemma named_spec : forall t, negb (t_null t && negb (t_san t)) = true <-> named t.
Proof. intro t. unfold named. destruct (t_null t), (t_san t); cbn; intuition congruence. Qed.
Lemma template_exact : forall E t sig lw, keys_known E -> (validate_template E t sig lw = Ok tt <->
  named t /\ good_key E lw t /\
  match sig with None => True | Some a => exists d k, t_key t = TKey d /\ e_load E d = Ok (Pub k) /\ fits (a_oid a) (k_kind k) end).
Proof.
  intros E t sig lw W. unfold validate_template. split.
  - intro H. apply bind_inv in H as ([] & H1 & H). apply guard_err_false in H1. split; [now apply named_spec|].
    apply bind_inv in H as (p & H2 & H). apply catch_ok in H2. apply bind_inv in H as ([] & H3 & H).
    apply bind_inv in H as ([] & H4 & H). destruct p as [p|].
    + apply tmpl_key_some in H2 as (d & T & HL). rewrite T in H. unfold good_key. rewrite T.
      destruct p as [k|]; [|discriminate H3]. split.
      * exists k. split; [exact HL|]. split; [intro K; rewrite K in H3; discriminate|]. split.
        -- intro K. rewrite K in H3. apply guard_err_false in H3. apply andb_prop in H3 as (L1 & L2).
           apply Z.leb_le in L1, L2. lia.
        -- destruct (k_kind k); try exact I; try exact H; apply guard_err_false in H; now apply negb_true_iff in H.
      * destruct sig as [a|]; [|exact I]. apply bind_inv in H4 as ([] & H5 & H4). apply catch_ok in H4.
        exists d, k. split; [reflexivity|]. split; [exact HL|]. apply (consistent_exact _ _ (W _ _ HL)). exact H4.
    + pose proof (proj1 (tmpl_key_none E t) H2) as T. split.
      * unfold good_key. destruct (t_key t) as [| |d]; auto. now destruct (T d).
      * destruct sig as [a|]; [discriminate H4|exact I].
  - intros (N & G & S). rewrite (proj2 (named_spec _) N). cbn [guard bind]. unfold good_key in G.
    destruct (t_key t) as [|x|d] eqn:T.
    + rewrite (proj2 (tmpl_key_none E t)) by (intro; congruence). cbn [catch bind].
      destruct sig as [a|]; [destruct S as (d & k & S & _); discriminate|]. reflexivity.
    + rewrite (proj2 (tmpl_key_none E t)) by (intro; congruence). cbn [catch bind].
      destruct sig as [a|]; [destruct S as (d & k & S & _); discriminate|]. reflexivity.
    + destruct G as (k & HL & ND & RB & Q). rewrite (proj2 (tmpl_key_some E false t (Pub k))) by eauto. cbn [catch bind].
      assert (S' : (match sig with None => Ok tt | Some a => let! _ := guard (is_sign_kind (k_kind k)) EBadCertTemplate in
           catch (fun e => is_value_error e || is_sig_id e) EBadCertTemplate (consistent (a_oid a) (k_kind k)) end) = Ok tt).
      { destruct sig as [a|]; [|reflexivity]. destruct S as (d' & k' & S1 & S2 & S3).
        assert (k' = k) by congruence. subst k'. rewrite (fits_sign _ _ S3). cbn [guard bind]. apply catch_ok.
        now apply (consistent_exact _ _ (W _ _ HL)). }
      destruct (k_kind k) eqn:KK; cbn [bind]; try (rewrite S'; cbn [bind]); try reflexivity; try congruence.
      * rewrite (proj2 (andb_true_iff _ _)); [reflexivity|]. specialize (RB eq_refl). split; apply Z.leb_le; lia.
      * first [exact Q | now rewrite Q].
      * first [exact Q | now rewrite Q].
      * first [exact Q | now rewrite Q].
Qed.
Lemma build_exact : forall E t t', build E t = Ok t' <-> t' = t /\ buildable E t.
Proof.
  intros E t t'. unfold build, buildable. destruct (t_key t) as [|a|d].
  - split; [discriminate|]. intros (_ & (d & p & H & _) & _). discriminate.
  - split; [discriminate|]. intros (_ & (d & p & H & _) & _). discriminate.
  - split.
    + intro H. apply bind_inv in H as (p & H1 & H). apply bind_inv in H as ([] & H2 & H). split; [congruence|].
      split; [exists d, p; auto|exact H2].
    + intros (-> & (d' & p & H & HL) & B). inversion H; subst d'. now rewrite HL, B.
Qed.

(** ** One request *)

Lemma disclosed_exact : forall E m q envelope c, process_encrypted_key E m q envelope = Ok c <->
  c = IPlain (r_tmpl (q_req q)) /\ buildable E (r_tmpl (q_req q)) /\
  exists k k', asks_for E q k /\ e_open E (b_certs m) envelope = Ok (k', true) /\ e_same E k' k = true.
Proof.
  intros E m q envelope c. unfold process_encrypted_key. split.
  - intro H. apply bind_inv in H as ([p|] & H1 & H); [|discriminate]. apply tmpl_key_some in H1 as (d & T & HL).
    apply bind_inv in H as ([k' b] & H2 & H). apply bind_inv in H as ([] & H3 & H). apply bind_inv in H as ([] & H4 & H).
    apply guard_err_false in H3, H4. subst b. apply bind_inv in H as (t' & H5 & H). apply build_exact in H5 as (-> & B).
    split; [congruence|]. split; [exact B|]. destruct p as [k|]; [|discriminate]. exists k, k'. split; [exists d; auto|auto].
  - intros (-> & B & k & k' & (d & T & HL) & O & SM). rewrite (proj2 (tmpl_key_some _ false _ (Pub k))) by eauto. cbn [bind].
    rewrite O. cbn [bind]. rewrite SM. cbn [guard bind]. now rewrite (proj2 (build_exact E _ _) (conj eq_refl B)).
Qed.
Lemma encipher_exact : forall E m q p c, respond_encipherment E m q p = Ok c <->
  buildable E (r_tmpl (q_req q)) /\
  ((exists e, p = PpKey e /\ process_encrypted_key E m q e = Ok c) \/
   (exists k, p = PpNext 0 /\ asks_for E q k /\ kem_class (k_kind k) /\ e_wrap E k = Ok tt /\ c = IEnc (r_tmpl (q_req q)) k)).
Proof.
  intros E m q p c. unfold respond_encipherment. split.
  - intro H. apply bind_inv in H as (t & H1 & H). apply build_exact in H1 as (-> & B). split; [exact B|].
    destruct p as [a v|n|e|]; try discriminate.
    + apply bind_inv in H as ([] & H1 & H). apply guard_err_false in H1. apply Z.eqb_eq in H1. subst n.
      apply bind_inv in H as ([k|] & H2 & H); [|discriminate]. apply bind_inv in H as ([] & H3 & H). apply guard_err_false in H3.
      apply bind_inv in H as ([] & H4 & H). right. exists k. split; [reflexivity|]. split; [now apply req_key_asks|].
      split; [now apply is_kem_spec|]. split; [exact H4|congruence].
    + left. eauto.
  - intros (B & [(e & -> & H)|(k & -> & A & K & WR & ->)]); rewrite (proj2 (build_exact E _ _) (conj eq_refl B)); cbn [bind].
    + exact H.
    + cbn [Z.eqb guard bind]. rewrite (proj2 (req_key_asks _ _ _) A). cbn [bind]. rewrite (proj2 (is_kem_spec _) K). cbn [guard bind].
      now rewrite WR.
Qed.
Lemma agree_exact : forall E m q p c, respond_agreement E m q p = Ok c <->
  exists k, asks_for E q k /\ ecdh_class (k_kind k) /\
  ((exists e, p = PpKey e /\ process_encrypted_key E m q e = Ok c) \/
   (exists a v own ss data, p = PpMac a v /\ e_agree E k = Some own /\ l_ecdh (e_lib E) own k = Ok ss /\
      e_enc E (q_req q) = Some data /\ compute_mac_from_alg_id (e_lib E) (e_rnd E) ss a data = Ok v /\
      buildable E (r_tmpl (q_req q)) /\ c = IPlain (r_tmpl (q_req q))) \/
   (exists n own, p = PpNext n /\ e_agree E k = Some own /\ e_wrap E k = Ok tt /\ buildable E (r_tmpl (q_req q)) /\
      c = IEnc (r_tmpl (q_req q)) k)).
Proof.
  intros E m q p c. unfold respond_agreement. split.
  - intro H. apply bind_inv in H as ([k|] & H1 & H); [|discriminate]. apply bind_inv in H as ([] & H2 & H).
    apply guard_err_false in H2. apply is_ecdh_spec in H2. apply req_key_asks in H1. exists k. split; [exact H1|]. split; [exact H2|].
    destruct p as [a v|n|e|]; try discriminate.
    + right; left. destruct (e_agree E k) as [own|]; [|discriminate]. apply bind_inv in H as (ss & H3 & H).
      destruct (e_enc E (q_req q)) as [data|]; [|discriminate]. apply bind_inv in H as (mac & H4 & H).
      apply bind_inv in H as ([] & H5 & H). apply guard_err_false in H5. apply bytes_eqb_eq in H5. subst mac.
      apply bind_inv in H as (t & H6 & H). apply build_exact in H6 as (-> & B).
      exists a, v, own, ss, data. repeat split; auto; try apply B. congruence.
    + right; right. destruct (e_agree E k) as [own|]; [|discriminate]. apply bind_inv in H as ([] & H3 & H).
      apply bind_inv in H as (t & H6 & H). apply build_exact in H6 as (-> & B). exists n, own. repeat split; auto; try apply B. congruence.
    + left. eauto.
  - intros (k & A & K & H). rewrite (proj2 (req_key_asks _ _ _) A). cbn [bind]. rewrite (proj2 (is_ecdh_spec _) K). cbn [guard bind].
    destruct H as [(e & -> & H)|[(a & v & own & ss & data & -> & O & X & D & M & B & ->)|(n & own & -> & O & WR & B & ->)]].
    + exact H.
    + rewrite O, X. cbn [bind]. rewrite D, M. cbn [bind]. rewrite bytes_eqb_refl. cbn [guard bind].
      now rewrite (proj2 (build_exact E _ _) (conj eq_refl B)).
    + rewrite O, WR. cbn [bind]. now rewrite (proj2 (build_exact E _ _) (conj eq_refl B)).
Qed.
Lemma first_exists : forall (l : list reqmsg) i q, nth_error l i = Some q -> exists w, nth_error l 0 = Some w.
Proof. intros [|w l] i q H; [destruct i; discriminate|]. now exists w. Qed.
Lemma in_force_key : forall E q alt d, registered E q alt -> t_key (r_tmpl (q_req q)) = TKey d -> t_key (in_force q alt) = TKey d.
Proof.
  intros E q alt d R T. unfold registered in R. unfold in_force. destruct (q_info q) as [l|]; [|now subst alt].
  destruct R as ([(_ & ->)|(r & (l' & v & _ & _ & _ & _ & _ & [K|K]) & ->)] & _); [exact T|congruence|congruence].
Qed.
Definition template_of_alt (q : reqmsg) (alt : option certreq) : template :=
  match option_map r_tmpl alt with Some x => x | None => r_tmpl (q_req q) end.
Lemma alt_in_force : forall q alt, template_of_alt q alt = in_force q alt.
Proof. intros q [r|]; reflexivity. Qed.

Theorem process_exact : forall E m i o q w c, keys_known E -> In (b_name m) own_bodies ->
  nth_error (b_reqs m) i = Some q -> nth_error (b_reqs m) 0 = Some w ->
  (process_one E m i o = Ok c <->
   exists alt, registered E q alt /\ named (r_tmpl (q_req q)) /\ good_key E (o_lw o) (r_tmpl (q_req q)) /\
     e_controls E i (q_req q) = Ok tt /\ named (in_force q alt) /\ good_key E true (in_force q alt) /\
     answers E m o w q (in_force q alt) c).
Proof.
  intros E m i o q w c W B N N0. pose proof (own_bodied _ B) as BB. unfold process_one.
  rewrite (proj2 (get_req_ok _ _ _ BB) N). cbn [bind]. split.
  - intro H. apply bind_inv in H as ([] & H0 & H). apply bind_inv in H as (alt & H1 & H). apply reg_info_exact in H1.
    apply bind_inv in H as ([] & H2 & H). apply (template_exact _ _ _ _ W) in H2 as (H2 & H3 & _).
    apply bind_inv in H as ([] & H4 & H). apply bind_inv in H as ([] & H5 & H).
    apply (popo_exact E m i o q w W B N N0) in H5. unfold respond in H. fold (template_of_alt q alt) in H. rewrite alt_in_force in H.
    apply bind_inv in H as ([] & H6 & H). apply (template_exact _ _ _ _ W) in H6 as (H6 & H7 & H8).
    exists alt. do 6 (split; [assumption|]). unfold popo_alg in H8. destruct (q_popo q) as [[|a v|p|p]|] eqn:Q.
    + apply bind_inv in H as (t' & H9 & H). apply build_exact in H9 as (-> & BD). assert (c = IPlain (in_force q alt)) by congruence. subst c.
      apply AN_ra; [exact Q| |exact BD]. destruct H5 as [[C _]|Q' R|a' v' Q' Sg|p' k' Q' A K|p' k' Q' A K]; try congruence. exact R.
    + apply bind_inv in H as (t' & H9 & H). apply build_exact in H9 as (-> & BD). assert (c = IPlain (in_force q alt)) by congruence. subst c.
      apply bind_inv in H0 as ([k|] & K1 & K2); [|discriminate]. apply catch_ok in K1. apply req_key_asks in K1.
      apply bind_inv in K2 as ([] & _ & K2). apply catch_ok in K2.
      assert (F : fits (a_oid a) (k_kind k)) by (destruct K1 as (d & _ & HL); now apply (consistent_exact _ _ (W _ _ HL))).
      apply (AN_signed _ _ _ _ _ _ k a v Q K1 F); [|exact BD].
      destruct H5 as [[C _]|Q' R|a' v' Q' Sg|p' k' Q' A K|p' k' Q' A K]; try congruence.
    + destruct H5 as [[C _]|Q' R|a' v' Q' Sg|p' k Q' A K|p' k' Q' A K]; try congruence. clear p' Q'.
      apply encipher_exact in H as (BD & [(e & -> & H)|(k' & -> & A' & K' & WR & ->)]).
      * apply disclosed_exact in H as (-> & _ & k1 & k2 & A1 & O & SM).
        apply (AN_disclosed _ _ _ _ _ _ k (PpKey e)); [exists k1, k2, e; auto|exact A|left; auto|exact BD].
      * apply AN_encipher; assumption.
    + destruct H5 as [[C _]|Q' R|a' v' Q' Sg|p' k' Q' A K|p' k Q' A K]; try congruence. clear p' Q'.
      apply agree_exact in H as (k' & A' & K' & [(e & -> & H)|[(a & v & own & ss & data & -> & O & X & D & M & BD & ->)|(n & own & -> & O & WR & BD & ->)]]).
      * apply disclosed_exact in H as (-> & BD & k1 & k2 & A1 & O & SM).
        apply (AN_disclosed _ _ _ _ _ _ k (PpKey e)); [exists k1, k2, e; auto|exact A|right; auto|exact BD].
      * apply AN_mac; [exists k', own, ss, a, v, data; auto 10|eauto|exact BD].
      * apply (AN_agree _ _ _ _ _ _ k' n own); assumption.
    + destruct H5 as [C|Q' R|a' v' Q' Sg|p' k' Q' A K|p' k' Q' A K]; try congruence.
      apply bind_inv in H as ([p|] & H9 & H); [discriminate|]. pose proof (proj1 (tmpl_key_none _ _) H9) as H9'.
      apply bind_inv in H as ([] & H10 & H). assert (c = ICentral (r_tmpl (q_req q))) by congruence. subst c.
      apply bind_inv in H0 as (b & K1 & K2). apply guard_err_false in K2. subst b.
      apply (kga_true _ _ _ _ _ BB N0) in K1 as [(K1 & _)|(_ & K1)]; [discriminate|]. now apply AN_central.
  - intros (alt & R & H2 & H3 & H4 & H6 & H7 & A).
    assert (G0 : (match q_popo q with
            | Some (PoSig a _) =>
                let! p := catch (fun e => is_key_data e || match e with EBadAsn1Data => true | _ => false end)
                                EBadCertTemplate (req_key E q) in
                match p with
                | PubDh => Err EBadPOP
                | Pub k =>
                    let! _ := guard (is_sign_kind (k_kind k)) EBadPOP in
                    catch is_sig_id EBadPOP (consistent (a_oid a) (k_kind k))
                end
            | Some _ => Ok tt
            | None => let! b := is_for_kga E m 0 in guard (b : bool) EBadCertTemplate
            end) = Ok tt).
    { destruct A as [C Cw T CE|Q RA BD|k a v Q A F Sg BD|(k & own & ss & a & v & data & A & Q & _) _ _|k p _ A Q _|k Q _ _ _ _|k n own Q _ _ _ _ _];
        try (rewrite Q; reflexivity).
      - rewrite (proj1 C). rewrite (proj2 (kga_true _ _ _ _ true BB N0)); [reflexivity|auto].
      - rewrite Q, (proj2 (catch_ok _ _ _ _ _) (proj2 (req_key_asks _ _ _) A)). cbn [bind]. rewrite (fits_sign _ _ F). cbn [guard bind].
        apply catch_ok. destruct A as (d & _ & HL). now apply (consistent_exact _ _ (W _ _ HL)).
      - destruct Q as [(Q & _)|(Q & _)]; rewrite Q; reflexivity. }
    rewrite G0. cbn [bind]. rewrite (proj2 (reg_info_exact _ _ _) R). cbn [bind].
    rewrite (proj2 (template_exact _ _ None _ W) (conj H2 (conj H3 I))). cbn [bind]. rewrite H4. cbn [bind].
    assert (P : pop_ok E m o w q).
    { destruct A as [C Cw T CE|Q RA BD|k a v Q A F Sg BD|(k & own & ss & a & v & data & A & Q & _) (k1 & A1 & K1) _|k p _ A [(Q & K)|(Q & K)] _|k Q A K _ _|k n own Q A K _ _ _].
      - now apply PO_central.
      - now apply PO_ra.
      - now apply (PO_signed _ _ _ _ _ a v).
      - now apply (PO_agree _ _ _ _ _ (PpMac a v) k1).
      - now apply (PO_encipher _ _ _ _ _ p k).
      - now apply (PO_agree _ _ _ _ _ p k).
      - now apply (PO_encipher _ _ _ _ _ (PpNext 0) k).
      - now apply (PO_agree _ _ _ _ _ (PpNext n) k). }
    rewrite (proj2 (popo_exact E m i o q w W B N N0) P). cbn [bind]. unfold respond. fold (template_of_alt q alt). rewrite alt_in_force.
    assert (V : validate_template E (in_force q alt) (popo_alg q) true = Ok tt).
    { apply (template_exact _ _ _ _ W). split; [exact H6|]. split; [exact H7|]. unfold popo_alg.
      destruct A as [(C & _) Cw T CE|Q RA BD|k a v Q A F Sg BD|(k & own & ss & a & v & data & A & Q & _) (k1 & A1 & K1) _|k p _ A [(Q & K)|(Q & K)] _|k Q A K _ _|k n own Q A K _ _ _];
        try (rewrite Q; exact I).
      - rewrite C. exact I.
      - rewrite Q. destruct A as (d & T & HL). exists d, k. split; [exact (in_force_key _ _ _ _ R T)|]. auto. }
    rewrite V. cbn [bind].
    destruct A as [(C & _) Cw T CE|Q RA BD|k a v Q A F Sg BD|(k & own & ss & a & v & data & A & Q & O & X & D & M) (k1 & A1 & K1) BD|k p (k1 & k2 & e & A1 & Q1 & O & SM) A Q BD|k Q A K WR BD|k n own Q A K O WR BD].
    + rewrite C. rewrite (proj2 (tmpl_key_none E (in_force q alt)) T). cbn [bind]. now rewrite CE.
    + rewrite Q. now rewrite (proj2 (build_exact E _ _) (conj eq_refl BD)).
    + rewrite Q. now rewrite (proj2 (build_exact E _ _) (conj eq_refl BD)).
    + rewrite Q. apply agree_exact. exists k1. split; [exact A1|]. split; [exact K1|]. right; left.
      rewrite (asks_fun _ _ _ _ A1 A). exists a, v, own, ss, data. auto 10.
    + assert (DE : process_encrypted_key E m q e = Ok (IPlain (r_tmpl (q_req q)))) by (apply disclosed_exact; eauto 10).
      destruct Q as [(Q & K)|(Q & K)], Q1 as [Q1|Q1]; try congruence.
      * rewrite Q1. apply encipher_exact. eauto.
      * rewrite Q1. apply agree_exact. exists k. eauto 10.
    + rewrite Q. apply encipher_exact. split; [exact BD|]. right. exists k. auto 10.
    + rewrite Q. apply agree_exact. exists k. split; [exact A|]. split; [exact K|]. right; right. exists n, own. auto 10.
Qed.

Lemma answers_entitled : forall E m o w q alt c, registered E q alt -> answers E m o w q (in_force q alt) c -> entitled E m o w q c.
Proof.
  intros E m o w q alt c R A.
  destruct A as [C Cw T CE|Q RA BD|k a v Q A F Sg BD|M A BD|k p D A Q BD|k Q A K WR BD|k n own Q A K O WR BD].
  - now apply EN_central.
  - apply EN_ra; [exact Q|exact RA|]. destruct (t_key (r_tmpl (q_req q))) as [|x|x] eqn:T; [now left| |].
    + right. unfold registered in R. unfold in_force. destruct (q_info q) as [l|]; [|now subst alt].
      destruct R as ([(_ & ->)|(r & (l' & v & _ & _ & _ & _ & _ & [K|K]) & ->)] & _); [exact T|congruence|congruence].
    + right. exact (in_force_key _ _ _ _ R T).
  - apply (EN_signed _ _ _ _ _ _ k a v Q A Sg). destruct A as (d & T & HL). rewrite T. exact (in_force_key _ _ _ _ R T).
  - now apply EN_mac.
  - now apply EN_disclosed.
  - now apply EN_encipher.
  - now apply (EN_agree _ _ _ _ _ k n).
Qed.
