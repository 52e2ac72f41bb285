(** Proofs about general messages. *)
From Coq Require Import String.
From Verif Require Import Prelude PreludeFacts PyStr ProtMac ChamProofs GenModel GenSpec.
Open Scope string_scope.
Open Scope Z_scope.
Open Scope list_scope.
Local Notation length := List.length.

(** ** Basic equivalences *)

Lemma bind_iff A B (r : result A) (f : A -> result B) b : bind r f = Ok b <-> exists a, r = Ok a /\ f a = Ok b.
Proof. destruct r; cbn [bind]; split; [eauto | intros (x & E & H); congruence | discriminate | intros (x & E & H); discriminate]. Qed.
Lemma guard_iff c e u : guard c e = Ok u <-> c = true.
Proof. destruct u, c; cbn [guard]; split; congruence. Qed.
Lemma ok_iff A (x y : A) : Ok x = Ok y <-> x = y. Proof. split; congruence. Qed.
Lemma dec_iff A (c : der A) v p : decode c v = Ok p <-> exists b, v = Some b /\ dec c b = Some p.
Proof.
  unfold decode. destruct v as [b|]; [|split; [discriminate | intros (b & E & _); discriminate]].
  destruct (dec c b) as [q|] eqn:E; split.
  - intros H. exists b. split; [reflexivity|]. congruence.
  - intros (b' & H & H'). congruence.
  - discriminate.
  - intros (b' & H & H'). congruence.
Qed.
Lemma try_iff A (c : der A) v p : try_decode c v = Ok p <-> exists b, v = Some b /\ dec c b = Some p.
Proof.
  unfold try_decode. destruct v as [b|]; [|split; [discriminate | intros (b & E & _); discriminate]].
  destruct (dec c b) as [q|] eqn:E; split.
  - intros H. exists b. split; [reflexivity|]. congruence.
  - intros (b' & H & H'). congruence.
  - discriminate.
  - intros (b' & H & H'). congruence.
Qed.
Lemma rest_iff A (p : A * bytes) e x : no_rest p e = Ok x <-> p = (x, []).
Proof.
  destruct p as [y [|z r]]; unfold no_rest; cbn [fst snd]; split; intros H.
  - injection H as ->. reflexivity.
  - injection H as ->. reflexivity.
  - discriminate H.
  - discriminate H.
Qed.

(** Decoding everything. *)
Lemma full_iff A (c : der A) v e x :
  (exists p, decode c v = Ok p /\ no_rest p e = Ok x) <-> exists b, v = Some b /\ reads c b x.
Proof.
  unfold reads. split.
  - intros (p & D & R). apply rest_iff in R. subst. now apply dec_iff in D.
  - intros (b & -> & R). exists (x, []). split; [apply dec_iff; eauto | now apply rest_iff].
Qed.
Lemma mock_iff A (c : der A) v x : mock_decode c v = Ok x <-> exists b, v = Some b /\ reads c b x.
Proof.
  unfold mock_decode, reads. rewrite bind_iff. split.
  - intros (p & D & R). apply rest_iff in R. subst. now apply try_iff in D.
  - intros (b & -> & R). exists (x, []). split; [apply try_iff; eauto | now apply rest_iff].
Qed.

Lemma value_iff l o v :
  get_value l o = Some v <->
  exists pre x post, l = pre ++ x :: post /\ it x = o /\ iv x = v /\ Forall (fun y => it y <> o) pre.
Proof.
  induction l as [|y l IH]; cbn [get_value].
  - split; [discriminate|]. intros ([|? ?] & x & post & E & _); discriminate.
  - destruct (String.eqb_spec (it y) o) as [E|E].
    + split.
      * intros H. exists [], y, l. repeat split; try congruence; auto.
      * intros ([|z pre] & x & post & H & Hx & Hv & P); cbn [app] in H.
        { assert (y = x) by congruence. congruence. }
        { assert (y = z) by congruence. subst. inversion P; subst. contradiction. }
    + rewrite IH. split.
      * intros (pre & x & post & -> & Hx & Hv & P). exists (y :: pre), x, post. repeat split; auto.
      * intros ([|z pre] & x & post & H & Hx & Hv & P); cbn [app] in H.
        { assert (y = x) by congruence. congruence. }
        { exists pre, x, post. inversion P; subst. repeat split; auto. congruence. }
Qed.
Lemma entry_iff m o v : entry_of m o = Ok v <-> answer m o v.
Proof.
  unfold entry_of, answer. rewrite <- value_iff. destruct (get_value (entries m) o); split; congruence.
Qed.
Lemma general_iff L m n u : general_response L m n = Ok u <-> response L m n.
Proof.
  unfold general_response, response, number. rewrite bind_iff. split.
  - intros (x & G & H). apply guard_iff, String.eqb_eq in G. split; [exact G|].
    destruct n as [z|s]; [exact I|]. destruct (l_int L s) eqn:E; [eauto | discriminate].
  - intros (B & N). exists tt. split; [apply guard_iff; now apply String.eqb_eq|].
    destruct u, n as [z|s]; [reflexivity|]. destruct N as (z & ->). reflexivity.
Qed.
Lemma must_iff (v : option bytes) must e u :
  guard (negb (match v with None => must | Some _ => false end)) e = Ok u <-> (v = None -> must = false).
Proof. rewrite guard_iff. destruct v, must; cbn [negb]; split; intros; try reflexivity; try discriminate; auto; exfalso; firstorder; discriminate. Qed.

(** One step of [bind] in a hypothesis. *)
Ltac step H p E := apply bind_iff in H; destruct H as (p & E & H).

(** ** CA certificates *)

Lemma last_split A (l : list A) d : l <> [] -> l = removelast l ++ [last l d].
Proof. intros H. now apply app_removelast_last. Qed.
Lemma last_def A (l : list A) a b : l <> [] -> last l a = last l b.
Proof. induction l as [|x [|y l] IH]; intros H; cbn [last] in *; [contradiction | reflexivity | apply IH; discriminate]. Qed.

Lemma ca_certs_iff L m must ee n crlc chain :
  get_ca_certs L m must ee n crlc = Ok (Some chain) <->
  body m = "genp" /\ n = SInt (Z.of_nat (length (entries m))) /\
  exists b cs rest, answer m id_caCerts (Some b) /\ dec (l_certs L) b = Some (cs, rest) /\
                    chain_for L ee cs chain /\ l_openssl L chain crlc = Ok tt.
Proof.
  unfold get_ca_certs. rewrite bind_iff. split.
  - intros (x & G & H). apply general_iff in G. destruct G as (B & N). split; [exact B|].
    destruct (same_size m n) eqn:SZ; cbn [negb] in H; [|discriminate].
    destruct n as [z|s]; cbn [same_size] in SZ; [|discriminate].
    apply Z.eqb_eq in SZ. split; [congruence|].
    step H v V. apply entry_iff in V. step H g G. step H cs D.
    destruct (decode (l_certs L) v) as [[cs' rest]|] eqn:E; [|discriminate]. cbn [fst] in D.
    assert (cs' = cs) by congruence. subst cs'. apply dec_iff in E. destruct E as (b & -> & E).
    exists b, cs, rest. split; [exact V|]. split; [exact E|].
    step H c C. step H o HO. assert (c = chain) by congruence. subst c. destruct o. split; [|exact HO].
    destruct ee as [e|]; cbn [chain_for]; [exact C|].
    set (l := match cs with [] => [l_blank L] | _ :: _ => cs end) in *.
    assert (NE : l <> []) by (unfold l; destruct cs; discriminate).
    step C c1 C1. step C c2 C2.
    destruct l as [|first mid] eqn:El; [contradiction|]. cbn [hd tl] in C1.
    rewrite (last_def _ _ (l_blank L) first) in C2 by exact NE.
    exists first, mid, (removelast (first :: mid)), c1, c2.
    split; [reflexivity|]. split; [now apply last_split|]. split; [exact C1|]. split; [exact C2|].
    destruct (length c1 <? length c2)%nat eqn:Lt; assert (chain = if (length c1 <? length c2)%nat then c2 else c1) by (rewrite Lt; congruence); rewrite Lt in *.
    + left. apply Nat.ltb_lt in Lt. auto.
    + right. apply Nat.ltb_ge in Lt. auto.
  - intros (B & -> & b & cs & rest & V & D & C & O). exists tt. split; [apply general_iff; split; [exact B | exact I]|].
    cbn [same_size]. rewrite Z.eqb_refl. cbn [negb].
    apply bind_iff. exists (Some b). split; [now apply entry_iff|].
    apply bind_iff. exists tt. split; [reflexivity|].
    apply bind_iff. exists cs. split; [unfold decode; now rewrite D|].
    apply bind_iff. exists chain. split; [|apply bind_iff; exists tt; auto].
    destruct ee as [e|]; cbn [chain_for] in C; [exact C|].
    set (l := match cs with [] => [l_blank L] | _ :: _ => cs end) in *.
    destruct C as (first & mid & final & c1 & c2 & E1 & E2 & C1 & C2 & W).
    assert (NE : l <> []) by (rewrite <- E1; discriminate).
    assert (F : removelast l = final) by (rewrite E2 at 1; apply removelast_last).
    apply bind_iff. exists c1. split; [rewrite <- E1; exact C1|].
    apply bind_iff. exists c2. split; [rewrite F, (last_def _ _ (l_blank L) first) by exact NE; exact C2|].
    destruct W as [(W & ->) | (W & ->)].
    + apply Nat.ltb_lt in W. now rewrite W.
    + apply Nat.ltb_ge in W. now rewrite W.
Qed.

Lemma ca_certs_size L m must ee n crlc :
  body m = "genp" -> number L n -> n <> SInt (Z.of_nat (length (entries m))) ->
  get_ca_certs L m must ee n crlc = Ok None.
Proof.
  intros B N H. unfold get_ca_certs. assert (G : general_response L m n = Ok tt) by (apply general_iff; split; assumption).
  rewrite G. cbn [bind]. assert (E : same_size m n = false); [|now rewrite E].
  destruct n as [z|s]; [|reflexivity]. cbn [same_size]. apply Z.eqb_neq. congruence.
Qed.

Lemma ca_certs_absent L m must ee n crlc r :
  answer m id_caCerts None -> get_ca_certs L m must ee n crlc <> Ok (Some r).
Proof.
  intros A H. apply ca_certs_iff in H. destruct H as (_ & _ & b & cs & rest & A' & _).
  apply entry_iff in A, A'. congruence.
Qed.

(** ** Root update *)

Lemma structure_iff L old nwn nwo own :
  update_structure L old nwn nwo own = Ok tt <->
  l_signer L nwn nwn = Ok true /\ l_signer L nwo old = Ok true /\
  (forall o, own = Some o -> l_signer L o nwn = Ok true /\ exists k, l_key L old = Ok k /\ l_key L o = Ok k) /\
  l_lint L nwn = Ok tt.
Proof.
  unfold update_structure. split.
  - intros H. step H a A. step H g G. apply guard_iff in G. subst a. step H b B. step H g' G. apply guard_iff in G. subst b.
    step H o HO. split; [exact A|]. split; [exact B|]. split; [|exact H].
    intros o' ->. step HO c C. step HO g2 G. apply guard_iff in G. subst c. split; [exact C|].
    step HO k K. step HO k' K'. apply guard_iff, bytes_eqb_iff in HO. subst. eauto.
  - intros (A & B & O & W). rewrite A. cbn [bind guard]. rewrite B. cbn [bind guard].
    destruct own as [o|]; cbn [bind]; [|exact W]. destruct (O o eq_refl) as (C & k & K & K'). rewrite C. cbn [bind guard]. rewrite K, K'. cbn [bind].
    assert (E : bytes_eqb k k = true) by now apply bytes_eqb_iff. rewrite E. exact W.
Qed.

Lemma update_iff L m old n :
  root_update L m (Some old) n = Ok tt <->
  response L m n /\
  (answer m id_rootCaKeyUpdate None \/
   exists b u, answer m id_rootCaKeyUpdate (Some b) /\ reads (l_update L) b u /\ consistent L u old).
Proof.
  unfold root_update. split.
  - intros H. step H x G. apply general_iff in G. split; [exact G|]. step H v V. apply entry_iff in V.
    destruct v as [b|]; [|now left]. right. step H p D. step H u R.
    destruct (proj1 (full_iff _ (l_update L) (Some b) EValueError u)) as (b' & E & RD); [eauto|].
    assert (b' = b) by congruence. subst b'. exists b, u. split; [exact V|]. split; [exact RD|].
    unfold process_update in H. destruct (u_nwo u) as [nwo|] eqn:E1; [|discriminate]. destruct (u_nwn u) as [nwn|] eqn:E2; [|discriminate].
    apply structure_iff in H. exists nwn, nwo. tauto.
  - intros (G & [A | (b & u & A & R & nwn & nwo & E1 & E2 & C)]).
    + apply bind_iff. exists tt. split; [now apply general_iff|]. apply bind_iff. exists None. split; [now apply entry_iff | reflexivity].
    + apply bind_iff. exists tt. split; [now apply general_iff|]. apply bind_iff. exists (Some b). split; [now apply entry_iff|].
      destruct (proj2 (full_iff _ (l_update L) (Some b) EValueError u)) as (p & D & N); [eauto|].
      rewrite D. cbn [bind]. rewrite N. cbn [bind]. unfold process_update. rewrite E1, E2. now apply structure_iff.
Qed.

Lemma update_no_old L m n :
  root_update L m None n = Ok tt <->
  response L m n /\
  (answer m id_rootCaKeyUpdate None \/
   exists b u, answer m id_rootCaKeyUpdate (Some b) /\ reads (l_update L) b u /\ u_nwn u <> None /\ u_nwo u <> None).
Proof.
  unfold root_update. split.
  - intros H. step H x G. apply general_iff in G. split; [exact G|]. step H v V. apply entry_iff in V.
    destruct v as [b|]; [|now left]. right. step H p D. step H u R.
    destruct (proj1 (full_iff _ (l_update L) (Some b) EValueError u)) as (b' & E & RD); [eauto|].
    assert (b' = b) by congruence. subst b'. exists b, u. split; [exact V|]. split; [exact RD|].
    unfold process_update in H. destruct (u_nwo u) as [nwo|] eqn:E1; [|discriminate]. destruct (u_nwn u) as [nwn|] eqn:E2; [|discriminate].
    split; discriminate.
  - intros (G & [A | (b & u & A & R & E1 & E2)]).
    + apply bind_iff. exists tt. split; [now apply general_iff|]. apply bind_iff. exists None. split; [now apply entry_iff | reflexivity].
    + apply bind_iff. exists tt. split; [now apply general_iff|]. apply bind_iff. exists (Some b). split; [now apply entry_iff|].
      destruct (proj2 (full_iff _ (l_update L) (Some b) EValueError u)) as (p & D & N); [eauto|].
      rewrite D. cbn [bind]. rewrite N. cbn [bind]. unfold process_update. destruct (u_nwo u), (u_nwn u); congruence.
Qed.

(** ** Request template *)

Lemma one A (l : list A) : (length l =? 1)%nat = true <-> exists x, l = [x].
Proof.
  destruct l as [|x [|y l]]; cbn [List.length Nat.eqb]; split; try discriminate; eauto; intros (z & E); discriminate.
Qed.

Lemma alg_ctrl_iff L v :
  alg_id_ctrl L v = Ok tt <->
  exists a, reads (l_alg L) v a /\
    (ed (a_oid a) /\ a_par a <> None \/
     a_oid a = id_ec /\ exists b c s, a_par a = Some b /\ reads (l_curve L) b c /\ l_curve_name L c = Some s).
Proof.
  unfold alg_id_ctrl. split.
  - intros H. step H p D. step H a R.
    destruct (proj1 (full_iff _ (l_alg L) (Some v) EValueError a)) as (b' & E & RD); [eauto|].
    assert (b' = v) by congruence. subst b'. exists a. split; [exact RD|].
    destruct (String.eqb_spec (a_oid a) id_Ed448) as [E1|E1]; cbn [orb] in H.
    { left. split; [now right|]. apply guard_iff in H. destruct (a_par a); [discriminate | discriminate H]. }
    destruct (String.eqb_spec (a_oid a) id_Ed25519) as [E2|E2]; cbn [orb] in H.
    { left. split; [now left|]. apply guard_iff in H. destruct (a_par a); [discriminate | discriminate H]. }
    destruct (String.eqb_spec (a_oid a) id_rsa) as [E3|E3]; [discriminate|].
    destruct (String.eqb_spec (a_oid a) id_ec) as [E4|E4]; [|discriminate].
    right. split; [exact E4|]. destruct (a_par a) as [b|]; [|discriminate].
    step H q Q. step H c C.
    destruct (proj1 (full_iff _ (l_curve L) (Some b) EValueError c)) as (b' & E' & RC); [eauto|].
    assert (b' = b) by congruence. subst b'. apply guard_iff in H.
    destruct (l_curve_name L c) as [s|] eqn:N; [|discriminate]. exists b, c, s. auto.
  - intros (a & R & C).
    destruct (proj2 (full_iff _ (l_alg L) (Some v) EValueError a)) as (p & D & N); [eauto|].
    rewrite D. cbn [bind]. rewrite N. cbn [bind].
    destruct C as [(E & P) | (E & b & c & s & P & RC & S')].
    + assert (X : String.eqb (a_oid a) id_Ed448 || String.eqb (a_oid a) id_Ed25519 = true).
      { apply orb_true_iff. destruct E as [-> | ->]; [right | left]; reflexivity. }
      rewrite X. destruct (a_par a); [reflexivity | contradiction].
    + rewrite E. change (String.eqb id_ec id_Ed448 || String.eqb id_ec id_Ed25519) with false.
      change (String.eqb id_ec id_rsa) with false. change (String.eqb id_ec id_ec) with true. cbv iota. rewrite P.
      destruct (proj2 (full_iff _ (l_curve L) (Some b) EValueError c)) as (q & D' & N'); [eauto|].
      rewrite D'. cbn [bind]. rewrite N'. cbn [bind]. now rewrite S'.
Qed.

Lemma controls_iff L c must :
  check_controls L c must 2048 = Ok tt <-> exists t v, c = Some [(t, v)] /\ key_spec L t v.
Proof.
  unfold check_controls. split.
  - intros H. step H g G. step H g' G'. apply guard_iff in G'. apply one in G'. destruct G' as ((t & v) & E).
    destruct c as [l|]; [subst l | discriminate]. exists t, v. split; [reflexivity|].
    cbn [control] in H. step H r R. unfold key_spec.
    destruct (String.eqb_spec t id_rsaKeyLen) as [E1|E1].
    + left. split; [exact E1|]. step R p D. step R z HZ.
      destruct (proj1 (full_iff _ (l_len L) (Some v) EValueError z)) as (b' & E' & RD); [eauto|].
      assert (b' = v) by congruence. subst b'. exists z. split; [exact RD|].
      apply guard_iff, negb_true_iff, Z.ltb_ge in R. exact R.
    + destruct (String.eqb_spec t id_algId) as [E2|E2].
      * right. left. split; [exact E2|]. now apply alg_ctrl_iff.
      * right. right. auto.
  - intros (t & v & -> & K). cbn [negb guard bind List.length Nat.eqb control].
    destruct K as [(-> & z & R & Z) | [(-> & A) | (N1 & N2)]].
    + rewrite String.eqb_refl. change (String.eqb id_rsaKeyLen id_algId) with false. cbv iota.
      destruct (proj2 (full_iff _ (l_len L) (Some v) EValueError z)) as (p & D & N); [eauto|].
      rewrite D. cbn [bind]. rewrite N. cbn [bind]. apply Z.ltb_ge in Z. rewrite Z. reflexivity.
    + change (String.eqb id_algId id_rsaKeyLen) with false. rewrite String.eqb_refl. cbv iota. cbn [bind]. now apply alg_ctrl_iff.
    + apply String.eqb_neq in N1, N2. rewrite N1, N2. reflexivity.
Qed.

Lemma clean_iff t : check_template t = Ok tt <-> clean t.
Proof.
  destruct t as [[] [] [] [] [] c]; unfold clean; cbn [check_template t_key t_serial t_sig t_iuid t_suid negb guard bind];
    split; try discriminate; try tauto; intros (? & ? & ? & ? & ?); discriminate.
Qed.

Lemma template_iff L m must controls n :
  request_template L m must controls n = Ok tt <->
  response L m n /\
  exists b t k v, answer m id_certReqTemplate (Some b) /\ reads (l_tmpl L) b t /\
                  t_spec t = Some [(k, v)] /\ key_spec L k v /\ clean t.
Proof.
  unfold request_template. split.
  - intros H. step H x G. apply general_iff in G. split; [exact G|]. step H v V. apply entry_iff in V. step H g G'.
    step H p D. step H t R. destruct (proj1 (full_iff _ (l_tmpl L) v EValueError t)) as (b & -> & RD); [eauto|].
    step H c C. destruct c. apply controls_iff in C. destruct C as (k & w & E & K). apply clean_iff in H.
    exists b, t, k, w. auto.
  - intros (G & b & t & k & v & A & R & E & K & C).
    apply bind_iff. exists tt. split; [now apply general_iff|]. apply bind_iff. exists (Some b). split; [now apply entry_iff|].
    cbn [negb guard bind]. destruct (proj2 (full_iff _ (l_tmpl L) (Some b) EValueError t)) as (p & D & N); [eauto|].
    rewrite D. cbn [bind]. rewrite N. cbn [bind]. apply bind_iff. exists tt. split; [apply controls_iff; eauto | now apply clean_iff].
Qed.

(** ** CRLs *)

Lemma crls_iff L l : validate_crls L l = Ok tt <-> Forall (fun c => l_crl_ok L c = Ok tt) l.
Proof.
  induction l as [|c l IH]; cbn [validate_crls]; [split; auto|]. rewrite bind_iff. split.
  - intros ([] & A & B). constructor; [exact A | now apply IH].
  - intros H. inversion H; subst. exists tt. split; [assumption | now apply IH].
Qed.

Lemma crl_update_iff L m must n k :
  crl_update L m must n k = Ok tt <->
  response L m n /\
  (answer m id_crls None /\ must = false \/
   exists b l, answer m id_crls (Some b) /\ reads (l_crls L) b l /\ Z.of_nat (length l) = k /\
               Forall (fun c => l_crl_ok L c = Ok tt) l).
Proof.
  unfold crl_update. split.
  - intros H. step H x G. apply general_iff in G. split; [exact G|]. step H v V. apply entry_iff in V.
    destruct v as [b|].
    + right. step H p D. step H l R. destruct (proj1 (full_iff _ (l_crls L) (Some b) EValueError l)) as (b' & E & RD); [eauto|].
      assert (b' = b) by congruence. subst b'. step H g G'. apply guard_iff, Z.eqb_eq in G'. apply crls_iff in H. exists b, l. auto.
    + left. split; [exact V|]. apply guard_iff in H. now destruct must.
  - intros (G & [(A & ->) | (b & l & A & R & K & F)]).
    + apply bind_iff. exists tt. split; [now apply general_iff|]. apply bind_iff. exists None. split; [now apply entry_iff | reflexivity].
    + apply bind_iff. exists tt. split; [now apply general_iff|]. apply bind_iff. exists (Some b). split; [now apply entry_iff|].
      destruct (proj2 (full_iff _ (l_crls L) (Some b) EValueError l)) as (p & D & N); [eauto|].
      rewrite D. cbn [bind]. rewrite N. cbn [bind]. apply bind_iff. exists tt. split; [apply guard_iff; now apply Z.eqb_eq | now apply crls_iff].
Qed.

Lemma current_iff L m n :
  current_crl L m n = Ok tt <->
  response L m n /\ exists b c, answer m id_currentCRL (Some b) /\ reads (l_crl L) b c /\ l_crl_lint L c = Ok tt.
Proof.
  unfold current_crl. split.
  - intros H. step H x G. apply general_iff in G. split; [exact G|]. step H v V. apply entry_iff in V.
    step H p D. step H c R. destruct (proj1 (full_iff _ (l_crl L) v EValueError c)) as (b & -> & RD); [eauto|]. exists b, c. auto.
  - intros (G & b & c & A & R & K).
    apply bind_iff. exists tt. split; [now apply general_iff|]. apply bind_iff. exists (Some b). split; [now apply entry_iff|].
    destruct (proj2 (full_iff _ (l_crl L) (Some b) EValueError c)) as (p & D & N); [eauto|].
    rewrite D. cbn [bind]. rewrite N. exact K.
Qed.

(** ** Algorithms and the like *)

Lemma sign_iff L m n :
  signing_types L m n = Ok tt <-> response L m n /\ exists b l, answer m id_signKeyPairTypes (Some b) /\ reads (l_algs L) b l.
Proof.
  unfold signing_types. split.
  - intros H. step H x G. apply general_iff in G. split; [exact G|]. step H v V. apply entry_iff in V.
    step H p D. step H c R. destruct (proj1 (full_iff _ (l_algs L) v EBadAsn1Data c)) as (b & -> & RD); [eauto|]. exists b, c. auto.
  - intros (G & b & c & A & R).
    apply bind_iff. exists tt. split; [now apply general_iff|]. apply bind_iff. exists (Some b). split; [now apply entry_iff|].
    destruct (proj2 (full_iff _ (l_algs L) (Some b) EBadAsn1Data c)) as (p & D & N); [eauto|].
    rewrite D. cbn [bind]. rewrite N. reflexivity.
Qed.

Lemma enc_alg_iff L a s : enc_alg L a = Ok s <-> named L a s.
Proof.
  unfold enc_alg, named. destruct (String.eqb_spec (a_oid a) id_ec) as [E|E].
  - unfold ec_alg_id. split.
    + intros H. left. split; [exact E|]. destruct (a_par a) as [b|]; [|discriminate].
      step H p D. step H c R. destruct (proj1 (full_iff _ (l_curve L) (Some b) EBadAsn1Data c)) as (b' & E' & RD); [eauto|].
      assert (b' = b) by congruence. subst b'. exists b, c. destruct (l_curve_name L c) eqn:N; [|discriminate].
      repeat split; auto. congruence.
    + intros [(_ & b & c & P & R & N) | [(X & _) | (X & _)]]; try contradiction.
      rewrite P. destruct (proj2 (full_iff _ (l_curve L) (Some b) EBadAsn1Data c)) as (p & D & N'); [eauto|].
      rewrite D. cbn [bind]. rewrite N'. cbn [bind]. now rewrite N.
  - unfold enc_name. destruct (l_curve_name L (a_oid a)) as [c|] eqn:N.
    + split.
      * intros H. right. left. split; [exact E|]. congruence.
      * intros [(X & _) | [(_ & H) | (_ & H & _)]]; [contradiction | congruence | discriminate].
    + split.
      * intros H. right. right. split; [exact E|]. split; [reflexivity|].
        destruct (String.eqb_spec (a_oid a) id_rsa) as [E1|E1]; [left; split; congruence|].
        destruct (String.eqb_spec (a_oid a) id_X25519) as [E2|E2]; [right; left; split; congruence|].
        destruct (String.eqb_spec (a_oid a) id_X448) as [E3|E3]; [right; right; split; congruence | discriminate].
      * intros [(X & _) | [(_ & H) | (_ & _ & H)]]; [contradiction | discriminate|].
        destruct H as [(-> & ->) | [(-> & ->) | (-> & ->)]]; reflexivity.
Qed.
Lemma mapM_iff A B (f : A -> result B) l r : mapM f l = Ok r <-> Forall2 (fun a b => f a = Ok b) l r.
Proof.
  revert r. induction l as [|a l IH]; intros r; cbn [mapM].
  - split; [intros H; assert (r = []) by congruence; subst; constructor | intros H; now inversion H].
  - rewrite bind_iff. split.
    + intros (b & Hb & H). step H t T. assert (r = b :: t) by congruence. subst. constructor; [exact Hb | now apply IH].
    + intros H. inversion H; subst. exists y. split; [assumption|]. apply bind_iff. eexists. split; [apply IH; eassumption | reflexivity].
Qed.
Lemma named_all L l r : Forall2 (fun a b => enc_alg L a = Ok b) l r <-> Forall2 (named L) l r.
Proof.
  split; intros H; induction H as [|a b l r E H IH]; constructor; try exact IH.
  - exact (proj1 (enc_alg_iff L a b) E).
  - exact (proj2 (enc_alg_iff L a b) E).
Qed.

Lemma enc_iff L m n r :
  enc_types L m n = Ok r <->
  response L m n /\ exists b l, answer m id_encKeyPairTypes (Some b) /\ reads (l_algs L) b l /\ l <> [] /\ Forall2 (named L) l r.
Proof.
  unfold enc_types. split.
  - intros H. step H x G. apply general_iff in G. split; [exact G|]. step H v V. apply entry_iff in V. step H g G'.
    step H p D. step H l R. destruct (proj1 (full_iff _ (l_algs L) v EBadAsn1Data l)) as (b & -> & RD); [eauto|].
    step H g' G2. apply guard_iff in G2. apply mapM_iff, named_all in H. exists b, l. repeat split; auto. intros ->. discriminate.
  - intros (G & b & l & A & R & NE & F).
    apply bind_iff. exists tt. split; [now apply general_iff|]. apply bind_iff. exists (Some b). split; [now apply entry_iff|].
    cbn [guard bind]. destruct (proj2 (full_iff _ (l_algs L) (Some b) EBadAsn1Data l)) as (p & D & N); [eauto|].
    rewrite D. cbn [bind]. rewrite N. cbn [bind]. destruct l as [|a l]; [contradiction|]. cbn [List.length Nat.eqb negb guard].
    cbn [bind]. now apply mapM_iff, named_all.
Qed.

Lemma sym_iff L m n s :
  sym_alg L m n = Ok s <->
  response L m n /\ exists b a, answer m id_preferredSymmAlg (Some b) /\ reads (l_alg L) b a /\
    In (a_oid a) [id_aes128; id_aes192; id_aes256] /\
    (l_known L (a_oid a) = Some s \/ l_known L (a_oid a) = None /\ s = a_oid a).
Proof.
  unfold sym_alg. split.
  - intros H. step H x G. apply general_iff in G. split; [exact G|]. step H v V. apply entry_iff in V. step H g G'.
    step H p D. step H a R. apply rest_iff in R. subst p. apply try_iff in D. destruct D as (b & -> & D).
    step H g' G2. apply guard_iff in G2. apply str_mem_In in G2. exists b, a. repeat split; auto.
    unfold oid_name in H. destruct (l_known L (a_oid a)); [left; congruence | right; split; [reflexivity | congruence]].
  - intros (G & b & a & A & R & M & N).
    apply bind_iff. exists tt. split; [now apply general_iff|]. apply bind_iff. exists (Some b). split; [now apply entry_iff|].
    cbn [guard bind]. apply bind_iff. exists (a, []). split; [apply try_iff; eauto|]. cbn [no_rest snd fst bind].
    apply bind_iff. exists tt. split; [apply guard_iff; now apply str_mem_In|]. unfold oid_name.
    destruct N as [N | (N & ->)]; now rewrite N.
Qed.

Lemma tags_iff L m n :
  language_tags L m n = Ok tt <->
  response L m n /\ exists b t, answer m id_suppLangTags (Some b) /\ reads (l_tags L) b [t].
Proof.
  unfold language_tags. split.
  - intros H. step H x G. apply general_iff in G. split; [exact G|]. step H v V. apply entry_iff in V.
    step H p D. step H l R. destruct (proj1 (full_iff _ (l_tags L) v EBadAsn1Data l)) as (b & -> & RD); [eauto|].
    apply guard_iff, one in H. destruct H as (t & ->). exists b, t. auto.
  - intros (G & b & t & A & R).
    apply bind_iff. exists tt. split; [now apply general_iff|]. apply bind_iff. exists (Some b). split; [now apply entry_iff|].
    destruct (proj2 (full_iff _ (l_tags L) (Some b) EBadAsn1Data [t])) as (p & D & N); [eauto|].
    rewrite D. cbn [bind]. rewrite N. reflexivity.
Qed.

Lemma passphrase_iff L m n :
  passphrase_response L m n = Ok tt <->
  response L m n /\ exists x r, entries m = x :: r /\ it x = id_revPassphrase /\ iv x = None.
Proof.
  unfold passphrase_response. split.
  - intros H. step H x G. apply general_iff in G. split; [exact G|]. destruct (entries m) as [|e r]; [discriminate|].
    step H g G'. apply guard_iff, String.eqb_eq in G'. apply guard_iff in H. exists e, r. destruct (iv e); [discriminate|]. auto.
  - intros (G & x & r & E & T & V). apply bind_iff. exists tt. split; [now apply general_iff|]. rewrite E, T, V. reflexivity.
Qed.

Lemma prot_iff L m n r :
  prot_enc_cert L m n = Ok r <->
  response L m n /\
  (answer m id_caProtEncCert None /\ r = None \/
   exists b c chain k, answer m id_caProtEncCert (Some b) /\ reads (l_cert L) b c /\ r = Some c /\
     l_dir_chain L c = Ok chain /\ chain <> [] /\ l_anchor L (last chain c) = Ok tt /\ l_openssl L chain false = Ok tt /\
     l_key L c = Ok k /\ l_env_key L k = true).
Proof.
  unfold prot_enc_cert. split.
  - intros H. step H x G. apply general_iff in G. split; [exact G|]. step H v V. apply entry_iff in V.
    destruct v as [b|]; [|left; split; [exact V | congruence]]. right.
    step H p D. step H c R. apply rest_iff in R. subst p. apply try_iff in D. destruct D as (b' & E & D).
    assert (b' = b) by congruence. subst b'. step H chain C. step H u U. step H o HO. destruct o. step H k K. step H g G'. apply guard_iff in G'.
    exists b, c, chain, k. assert (r = Some c) by congruence.
    destruct chain as [|y chain]; [discriminate|]. destruct u. repeat split; auto. discriminate.
  - intros (G & [(A & ->) | (b & c & chain & k & A & R & -> & C & NE & AN & O & K & EK)]).
    + apply bind_iff. exists tt. split; [now apply general_iff|]. apply bind_iff. exists None. split; [now apply entry_iff | reflexivity].
    + apply bind_iff. exists tt. split; [now apply general_iff|]. apply bind_iff. exists (Some b). split; [now apply entry_iff|].
      apply bind_iff. exists (c, []). split; [apply try_iff; eauto|]. cbn [no_rest snd fst bind]. rewrite C. cbn [bind].
      destruct chain as [|y chain]; [contradiction|]. rewrite AN. cbn [bind]. rewrite O. cbn [bind]. rewrite K. cbn [bind]. rewrite EK. reflexivity.
Qed.

(** ** The size is not looked at *)

Lemma size_general L m a b : general_response L m (SInt a) = general_response L m (SInt b).
Proof. reflexivity. Qed.
Lemma size_ignored L m a b :
  (forall old, root_update L m old (SInt a) = root_update L m old (SInt b)) /\
  (forall must c, request_template L m must c (SInt a) = request_template L m must c (SInt b)) /\
  (forall must k, crl_update L m must (SInt a) k = crl_update L m must (SInt b) k) /\
  current_crl L m (SInt a) = current_crl L m (SInt b) /\
  prot_enc_cert L m (SInt a) = prot_enc_cert L m (SInt b) /\
  signing_types L m (SInt a) = signing_types L m (SInt b) /\
  enc_types L m (SInt a) = enc_types L m (SInt b) /\
  sym_alg L m (SInt a) = sym_alg L m (SInt b) /\
  passphrase_response L m (SInt a) = passphrase_response L m (SInt b) /\
  language_tags L m (SInt a) = language_tags L m (SInt b) /\
  (forall sk, validate_kem L m sk (SInt a) = validate_kem L m sk (SInt b)).
Proof. repeat split. Qed.

(** ** KEM ciphertexts *)

Lemma kem_iff L m sk n ss :
  validate_kem L m (Some sk) n = Ok ss <->
  response L m n /\ exists b o ct, answer m id_KemCiphertextInfo (Some b) /\ reads (l_kem L) b (o, ct) /\ l_decaps L sk ct = Ok ss.
Proof.
  unfold validate_kem. split.
  - intros H. step H x G. apply general_iff in G. split; [exact G|]. step H v V. apply entry_iff in V. step H g G'.
    step H p D. step H oc R. apply rest_iff in R. subst p. apply try_iff in D. destruct D as (b & -> & D). destruct oc as [o ct].
    exists b, o, ct. auto.
  - intros (G & b & o & ct & A & R & K).
    apply bind_iff. exists tt. split; [now apply general_iff|]. apply bind_iff. exists (Some b). split; [now apply entry_iff|].
    cbn [guard bind]. apply bind_iff. exists ((o, ct), []). split; [apply try_iff; eauto|]. exact K.
Qed.

Lemma genp_kem_iff L m n ss l :
  genp_kem L m n = Ok (ss, l) <->
  body m = "genm" /\ Z.of_nat (length (entries m)) = n /\ (exists v, answer m id_KemCiphertextInfo v) /\
  exists c r k o ct, extra m = c :: r /\ l_key L c = Ok k /\ l_kem_pub L k = true /\ l_encaps L k = Ok (ss, ct) /\
    l_kem_oid L k = Ok o /\ l = [{| it := id_KemCiphertextInfo; iv := Some (enc (l_kem L) (o, ct)) |}].
Proof.
  unfold genp_kem, genm_size. split.
  - intros H. step H g G. step G g' G'. apply guard_iff, String.eqb_eq in G'. apply guard_iff, Z.eqb_eq in G.
    step H v V. apply entry_iff in V. split; [exact G'|]. split; [exact G|]. split; [eauto|].
    destruct (extra m) as [|c r]; [discriminate|]. step H k K. step H g2 G2. apply guard_iff in G2. step H p P.
    unfold kem_entry in P. step P sc Q. step P o HO. destruct sc as [s ct]. exists c, r, k, o, ct. cbn [fst snd] in *. subst.
    assert (E : p = (s, {| it := id_KemCiphertextInfo; iv := Some (enc (l_kem L) (o, ct)) |})) by congruence. subst p. cbn [fst snd] in H.
    assert (s = ss) by congruence. subst. repeat split; auto. congruence.
  - intros (B & <- & (v & V) & c & r & k & o & ct & X & K & KP & Q & O & ->).
    rewrite B. change (String.eqb "genm" "genm") with true. cbn [guard bind]. rewrite Z.eqb_refl. cbn [guard bind].
    apply bind_iff. exists v. split; [now apply entry_iff|]. rewrite X, K. cbn [bind]. rewrite KP. cbn [guard bind].
    unfold kem_entry. rewrite Q. cbn [bind]. rewrite O. reflexivity.
Qed.

Lemma answer_one m o v : entries m = [{| it := o; iv := v |}] -> answer m o v.
Proof. intros E. exists [], {| it := o; iv := v |}, []. repeat split; auto. Qed.

Lemma kem_agree L q n ss l m k sk c r size :
  faithful (l_kem L) -> genp_kem L q n = Ok (ss, l) -> extra q = c :: r -> l_key L c = Ok k -> kem_pair L k sk ->
  response L m size -> entries m = l -> validate_kem L m (Some sk) size = Ok ss.
Proof.
  intros F G X K P R E. apply genp_kem_iff in G. destruct G as (_ & _ & _ & c' & r' & k' & o & ct & X' & K' & _ & Q & _ & ->).
  assert (c' = c) by congruence. subst c'. assert (k' = k) by congruence. subst k'.
  apply kem_iff. split; [exact R|]. exists (enc (l_kem L) (o, ct)), o, ct. split; [now apply answer_one|]. split; [apply F | now apply P].
Qed.
