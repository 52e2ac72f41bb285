(** Proofs about recipient infos and the encrypted key of a proof of possession. *)
From Coq Require Import String Lia.
From Verif Require Import Prelude PreludeFacts PyStr ProtMac GenModel GenProofs RcpModel RcpSpec.
Open Scope string_scope.
Open Scope Z_scope.
Open Scope list_scope.

Definition the_cek (rnd : bytes) (a : args) : bytes := match a_cek a with None => rnd | Some k => k end.
Ltac run H := repeat (let x := fresh "x" in let E := fresh "E" in apply bind_inv in H; destruct H as (x & E & H)).

Lemma recip_sound L rnd a r : prepare_recip_info L rnd a = Ok r ->
  (exists k b, a_key a = Some (PRsa k) /\ b_ktri L k (the_cek rnd a) (a_cert a) (a_ias a) (a_rid a) (a_oaep a) = Ok b /\ r = RKtri b) \/
  (exists k p b, a_key a = Some (PEcdh k) /\ a_priv a = Some p /\ b_kari L k p (the_cek rnd a) (a_cert a) (a_ias a) (a_rid a) (a_orig a) = Ok b /\ r = RKari b) \/
  (exists k b, a_key a = Some (PKem k) /\ b_kem L k (the_cek rnd a) (a_cert a) (a_ias a) (a_rid a) (a_kdf a) = Ok b /\ r = ROri "id_ori_kem" b) \/
  (exists w b, (a_key a = None \/ exists k, a_key a = Some (POther k)) /\ a_pw a = Some w /\ b_pw L w (the_cek rnd a) (a_salt a) (a_kdf a) = Ok b /\ r = RPwri b).
Proof.
  unfold prepare_recip_info. fold (the_cek rnd a). cbv zeta.
  destruct (a_key a) as [[k|k|k|k]|] eqn:K.
  - intros H. run H. injection H as <-. left. eauto 6.
  - destruct (a_priv a) as [p|] eqn:P; [|discriminate]. intros H. run H. injection H as <-. right. left. eauto 8.
  - intros H. run H. injection H as <-. right. right. left. eauto 6.
  - destruct (a_pw a) as [w|] eqn:W; [|discriminate]. intros H. run H. injection H as <-. right. right. right. exists w, x. eauto 8.
  - destruct (a_pw a) as [w|] eqn:W; [|discriminate]. intros H. run H. injection H as <-. right. right. right. exists w, x. eauto 8.
Qed.
Lemma recip_complete L rnd a :
  (forall k b, a_key a = Some (PRsa k) -> b_ktri L k (the_cek rnd a) (a_cert a) (a_ias a) (a_rid a) (a_oaep a) = Ok b -> prepare_recip_info L rnd a = Ok (RKtri b)) /\
  (forall k p b, a_key a = Some (PEcdh k) -> a_priv a = Some p -> b_kari L k p (the_cek rnd a) (a_cert a) (a_ias a) (a_rid a) (a_orig a) = Ok b -> prepare_recip_info L rnd a = Ok (RKari b)) /\
  (forall k b, a_key a = Some (PKem k) -> b_kem L k (the_cek rnd a) (a_cert a) (a_ias a) (a_rid a) (a_kdf a) = Ok b -> prepare_recip_info L rnd a = Ok (ROri "id_ori_kem" b)) /\
  (forall w b, (a_key a = None \/ exists k, a_key a = Some (POther k)) -> a_pw a = Some w -> b_pw L w (the_cek rnd a) (a_salt a) (a_kdf a) = Ok b -> prepare_recip_info L rnd a = Ok (RPwri b)).
Proof.
  unfold prepare_recip_info. fold (the_cek rnd a). cbv zeta. split; [|split; [|split]].
  - intros k b -> ->. reflexivity.
  - intros k p b -> -> ->. reflexivity.
  - intros k b -> ->. reflexivity.
  - intros w b [->|(k & ->)] -> ->; reflexivity.
Qed.
Lemma recip_kind L rnd a r : prepare_recip_info L rnd a = Ok r -> kind_for (a_key a) (a_priv a) (a_pw a) r.
Proof.
  intros H. apply recip_sound in H. destruct H as [(k & b & K & _ & ->)|[(k & p & b & K & P & _ & ->)|[(k & b & K & _ & ->)|(w & b & K & W & _ & ->)]]].
  - rewrite K. constructor.
  - rewrite K, P. constructor.
  - rewrite K. constructor.
  - rewrite W. destruct K as [K|(k & K)]; rewrite K; constructor.
Qed.
Lemma recip_unwraps L u rnd a r : faithful L u -> prepare_recip_info L rnd a = Ok r -> u r = Some (the_cek rnd a).
Proof.
  intros (F1 & F2 & F3 & F4) H. apply recip_sound in H.
  destruct H as [(k & b & _ & B & ->)|[(k & p & b & _ & _ & B & ->)|[(k & b & _ & B & ->)|(w & b & _ & _ & B & ->)]]]; eauto.
Qed.
Lemma recip_refused L rnd a :
  (a_key a = None /\ a_pw a = None) \/ (exists k, a_key a = Some (POther k) /\ a_pw a = None) \/ (exists k, a_key a = Some (PEcdh k) /\ a_priv a = None) ->
  prepare_recip_info L rnd a = Err EValueError.
Proof. unfold prepare_recip_info. intros [(K & P)|[(k & K & P)|(k & K & P)]]; rewrite K, P; reflexivity. Qed.
Lemma password_ignored L rnd a w :
  (exists k, a_key a = Some (PRsa k) \/ a_key a = Some (PKem k) \/ a_key a = Some (PEcdh k)) ->
  prepare_recip_info L rnd {| a_key := a_key a; a_priv := a_priv a; a_cert := a_cert a; a_pw := w; a_cek := a_cek a; a_ias := a_ias a; a_rid := a_rid a;
                              a_oaep := a_oaep a; a_salt := a_salt a; a_kdf := a_kdf a; a_orig := a_orig a |} = prepare_recip_info L rnd a.
Proof. unfold prepare_recip_info. cbn [a_key a_priv a_cert a_pw a_cek a_ias a_rid a_oaep a_salt a_kdf a_orig]. intros (k & [K|[K|K]]); rewrite K; reflexivity. Qed.

Definition popo_cek (rnd : bytes) (q : pargs) : bytes := match q_cek q with None | Some [] => rnd | Some k => k end.
Lemma popo_inv L rnd q p : enc_key_for_popo L rnd q = Ok p <->
  exists r c, recip_for_popo L (popo_cek rnd q) q = Ok r /\ b_content L (popo_cek rnd q) (q_data q) = Ok c /\
  p_option p = (if q_agree q then "keyAgreement" else "keyEncipherment") /\ v_infos (p_env p) = [r] /\ v_content (p_env p) = c /\
  v_version (p_env p) = match q_version q with Some v => v | None => if String.eqb (name_of r) "ori" || String.eqb (name_of r) "pwri" then 0 else 2 end.
Proof.
  unfold enc_key_for_popo. fold (popo_cek rnd q). cbv zeta. split.
  - intros H. apply bind_inv in H. destruct H as (r & R & H). cbn [parse_recip_info bind] in H. apply bind_inv in H. destruct H as (c & C0 & H). injection H as <-.
    exists r, c. cbn [p_option p_env v_infos v_content v_version]. auto 8.
  - intros (r & c & R & C0 & O0 & I0 & V & W). rewrite R. cbn [bind parse_recip_info]. rewrite C0. cbn [bind]. destruct p as [o [v i c']]. cbn [p_option p_env v_infos v_content v_version] in *. now subst.
Qed.
Lemma made_unwraps L u cek q r : faithful L u -> q_recip q = None -> recip_for_popo L cek q = Ok r -> u r = Some cek.
Proof.
  unfold recip_for_popo. intros F -> H. destruct (q_ca q) as [ca|]; [|discriminate]. apply bind_inv in H. destruct H as (k & K & H).
  apply bind_inv in H. destruct H as (rid & R & H). cbv zeta in H. apply (recip_unwraps L u) in H; [exact H | exact F].
Qed.
Lemma popo_opens L u dec rnd q p : faithful L u -> correct L dec -> q_recip q = None -> enc_key_for_popo L rnd q = Ok p -> opens u dec (p_env p) (q_data q).
Proof.
  intros F C0 N H. apply popo_inv in H. destruct H as (r & c & R & E & _ & I0 & V & _). unfold opens. rewrite I0, V. intros x [<-|[]].
  exists (popo_cek rnd q). split; [eapply made_unwraps; eauto | eauto].
Qed.
(** With a recipient info of the caller: exactly when it has the key of the content. *)
Lemma popo_given L u dec rnd q p o r : correct L dec -> q_recip q = Some o -> parse_recip_info o = Ok r -> enc_key_for_popo L rnd q = Ok p ->
  (u r = Some (popo_cek rnd q) -> opens u dec (p_env p) (q_data q)) /\
  (forall k, u r = Some k -> opens u dec (p_env p) (q_data q) -> dec k (v_content (p_env p)) = Some (q_data q)) /\
  b_content L (popo_cek rnd q) (q_data q) = Ok (v_content (p_env p)).
Proof.
  intros C0 N P H. apply popo_inv in H. destruct H as (r' & c & R & E & _ & I0 & V & _). unfold recip_for_popo in R. rewrite N, P in R. injection R as <-.
  unfold opens. rewrite I0, V. split; [|split; [|exact E]].
  - intros U x [<-|[]]. eauto.
  - intros k U Op. destruct (Op r (or_introl eq_refl)) as (k' & U' & D). congruence.
Qed.
Lemma popo_version L rnd q p r : enc_key_for_popo L rnd q = Ok p -> q_version q = None -> v_infos (p_env p) = [r] ->
  (rfc_version r (v_version (p_env p)) <-> match r with RPwri _ | ROri _ _ => False | _ => True end).
Proof.
  intros H Q I0. apply popo_inv in H. destruct H as (r' & c & _ & _ & _ & I1 & _ & W). rewrite I0 in I1. injection I1 as <-. rewrite Q in W. rewrite W.
  destruct r; cbn; split; try tauto; try discriminate; auto.
Qed.
(** Which identifiers are used, shown by the call of the function that makes the recipient info. *)
Lemma popo_rid_kem L rnd q p ca k cmp : q_recip q = None -> q_ca q = Some ca -> q_rid q = None -> q_cmp q = Some cmp -> b_load L ca = Ok (PKem k) ->
  enc_key_for_popo L rnd q = Ok p -> exists i b, b_rid L ca = Ok i /\ b_kem L k (popo_cek rnd q) (Some ca) None (Some i) "hkdf" = Ok b /\ v_infos (p_env p) = [ROri "id_ori_kem" b].
Proof.
  intros N A R0 M K H. apply popo_inv in H. destruct H as (r & c & R & _ & _ & I0 & _). unfold recip_for_popo in R. rewrite N, A, R0, M, K in R. cbn [bind prepare_rid] in R.
  apply bind_inv in R. destruct R as (o & O0 & R). apply bind_inv in O0. destruct O0 as (i & I1 & O0). injection O0 as <-. cbn [prepare_recip_info a_key a_cek a_cert a_ias a_rid a_kdf] in R.
  apply bind_inv in R. destruct R as (b & B & R). injection R as <-. exists i, b. rewrite I0. auto.
Qed.
Lemma popo_rid_ecdh L rnd q p ca k cmp : q_recip q = None -> q_ca q = Some ca -> q_rid q = None -> q_cmp q = Some cmp -> q_orig q = None -> b_load L ca = Ok (PEcdh k) ->
  enc_key_for_popo L rnd q = Ok p ->
  exists i b s, b_rid L cmp = Ok i /\ q_priv q = Some s /\ b_kari L k s (popo_cek rnd q) (Some ca) None (Some i) (Some i) = Ok b /\ v_infos (p_env p) = [RKari b].
Proof.
  intros N A R0 M G K H. apply popo_inv in H. destruct H as (r & c & R & _ & _ & I0 & _). unfold recip_for_popo in R. rewrite N, A, R0, M, K, G in R. cbn [bind prepare_rid] in R.
  apply bind_inv in R. destruct R as (o & O0 & R). apply bind_inv in O0. destruct O0 as (i & I1 & O0). injection O0 as <-. cbv zeta in R. cbn [prepare_recip_info a_key a_priv a_cek a_cert a_ias a_rid a_kdf a_orig] in R.
  destruct (q_priv q) as [s|] eqn:Pq; [|discriminate]. apply bind_inv in R. destruct R as (b & B & R). injection R as <-. exists i, b, s. rewrite I0.
  assert (E : prepare_originator_with_rid i = i) by now destruct i. rewrite E in B. auto.
Qed.
Lemma popo_rid_rsa L rnd q p ca k cmp : q_recip q = None -> q_ca q = Some ca -> q_rid q = None -> q_cmp q = Some cmp -> b_load L ca = Ok (PRsa k) ->
  enc_key_for_popo L rnd q = Ok p -> exists i b, b_rid L cmp = Ok i /\ b_ktri L k (popo_cek rnd q) (Some ca) None (Some i) true = Ok b /\ v_infos (p_env p) = [RKtri b].
Proof.
  intros N A R0 M K H. apply popo_inv in H. destruct H as (r & c & R & _ & _ & I0 & _). unfold recip_for_popo in R. rewrite N, A, R0, M, K in R. cbn [bind prepare_rid] in R.
  apply bind_inv in R. destruct R as (o & O0 & R). apply bind_inv in O0. destruct O0 as (i & I1 & O0). injection O0 as <-. cbn [prepare_recip_info a_key a_cek a_cert a_ias a_rid a_kdf a_oaep] in R.
  apply bind_inv in R. destruct R as (b & B & R). injection R as <-. exists i, b. rewrite I0. auto.
Qed.
(** Identifiers of the caller are used as they are. *)
Lemma popo_own_rid L rnd q p ca k i : q_recip q = None -> q_ca q = Some ca -> q_rid q = Some i -> b_load L ca = Ok (PEcdh k) -> enc_key_for_popo L rnd q = Ok p ->
  exists b s, q_priv q = Some s /\ v_infos (p_env p) = [RKari b] /\
  b_kari L k s (popo_cek rnd q) (Some ca) None (Some i) (Some (match q_orig q with Some o => o | None => i end)) = Ok b.
Proof.
  intros N A R0 K H. apply popo_inv in H. destruct H as (r & c & R & _ & _ & I0 & _). unfold recip_for_popo in R. rewrite N, A, R0, K in R.
  assert (E : prepare_originator_with_rid i = i) by now destruct i.
  destruct (q_cmp q) as [cm|]; cbn [bind] in R; cbv zeta in R; rewrite E in R; cbn [prepare_recip_info a_key a_priv a_cek a_cert a_ias a_rid a_kdf a_orig] in R;
    (destruct (q_priv q) as [s|] eqn:Pq; [|discriminate]); apply bind_inv in R; destruct R as (b & B & R); injection R as <-; exists b, s; rewrite I0; destruct (q_orig q); auto.
Qed.
