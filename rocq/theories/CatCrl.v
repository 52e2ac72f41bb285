(** Proofs about catalyst revocation lists. *)
From Coq Require Import String Ascii.
From Verif Require Import Prelude PyStr ProtTab ProtMac CatModel CatSpec CatProofs.
Open Scope string_scope.
Open Scope Z_scope.
Open Scope list_scope.
Local Notation oid := ProtTab.oid.

Lemma whole_iff A (d : bytes -> option (A * bytes)) b x : whole d b = Ok x <-> d b = Some (x, []).
Proof. unfold whole. destruct (d b) as [[y [|z r]]|]; split; intros H; try discriminate H; injection H as ->; reflexivity. Qed.
Definition get1 {A} (o : option (A * bytes)) : option A := option_map fst o.
(** What the loop computes, read off the list. *)
Definition final (L : lib) (l : list ext) (n : scan) : scan :=
  {| n_alg := match last_value l ALT_ALG with Some v => get1 (l_algdec L v) | None => n_alg n end;
     n_sig := match last_value l ALT_SIG with Some v => get1 (l_bitsdec L v) | None => n_sig n end;
     n_key := match n_key n with
              | Some k => Some k
              | None => match get_extension l ALT_SPKI with
                        | Some e => match l_spkidec L (x_val e) with
                                    | Some (s, _) => match l_load L s with Ok k => Some k | Err _ => None end
                                    | None => None
                                    end
                        | None => None
                        end
              end;
     n_exts := n_exts n ++ without ALT_SIG l |}.
Definition key_loads (L : lib) (l : list ext) (o : option pub) : Prop :=
  o = None -> forall e s, first_is l ALT_SPKI e -> l_spkidec L (x_val e) = Some (s, []) -> exists k, l_load L s = Ok k.
Lemma whole_cons L e l : all_whole L (e :: l) <->
  ((x_id e = ALT_SIG -> exists s, l_bitsdec L (x_val e) = Some (s, [])) /\
   (x_id e = ALT_ALG -> exists a, l_algdec L (x_val e) = Some (a, [])) /\
   (x_id e = ALT_SPKI -> exists k, l_spkidec L (x_val e) = Some (k, []))) /\ all_whole L l.
Proof.
  unfold all_whole. split.
  - intros H. split; [apply H; now left | intros x Hx; apply H; now right].
  - intros [H1 H2] x [->|Hx]; [exact H1 | now apply H2].
Qed.
Lemma first_cons l o e x : first_is (e :: l) o x <-> (x_id e = o /\ x = e) \/ (x_id e <> o /\ first_is l o x).
Proof.
  rewrite <- !get_extension_some. cbn [get_extension]. destruct (String.eqb_spec (x_id e) o); split; intros H.
  - left. split; congruence.
  - destruct H as [[_ ->]|[N _]]; [reflexivity | contradiction].
  - right. auto.
  - destruct H as [[N _]|[_ H]]; [contradiction | assumption].
Qed.
Lemma without_cons o e l : without o (e :: l) = if string_dec (x_id e) o then without o l else e :: without o l.
Proof. unfold without. cbn [filter]. now destruct (string_dec (x_id e) o). Qed.
Lemma opt_match A (o : option A) (d : option A) (v : A) : match match o with Some w => Some w | None => Some v end with Some w => Some w | None => d end = match o with Some w => Some w | None => Some v end.
Proof. now destruct o. Qed.
Theorem scan_iff L l n n' : crl_scan L l n = Ok n' <-> all_whole L l /\ key_loads L l (n_key n) /\ n' = final L l n.
Proof.
  revert n. induction l as [|e l IH]; intros n.
  - cbn [crl_scan]. split.
    + intros [= <-]. split; [intros e []|]. split.
      * intros _ e s F. apply get_extension_some in F. discriminate F.
      * unfold final. cbn. rewrite app_nil_r. destruct n as [a s [k|] x]; reflexivity.
    + intros (_ & _ & ->). unfold final. cbn. rewrite app_nil_r. destruct n as [a s [k|] x]; reflexivity.
  - cbn [crl_scan]. rewrite whole_cons.
    assert (x_id e <> ALT_SPKI -> forall o, key_loads L (e :: l) o <-> key_loads L l o) as KL.
    { intros N o. unfold key_loads. split; intros H Eo x s F; apply H; auto; [apply first_cons; auto|].
      apply first_cons in F. destruct F as [[Q _]|[_ F]]; [contradiction | assumption]. }
    destruct (String.eqb_spec (x_id e) ALT_SIG) as [E1|E1]; [|destruct (String.eqb_spec (x_id e) ALT_ALG) as [E2|E2]; [|destruct (String.eqb_spec (x_id e) ALT_SPKI) as [E3|E3]]].
    + assert (x_id e <> ALT_SPKI) as N3 by (rewrite E1; discriminate). assert (x_id e <> ALT_ALG) as N2 by (rewrite E1; discriminate). rewrite (KL N3).
      assert (forall s, l_bitsdec L (x_val e) = Some (s, []) -> final L l {| n_alg := n_alg n; n_sig := Some s; n_key := n_key n; n_exts := n_exts n |} = final L (e :: l) n) as Fin.
      { intros s D. unfold final. cbn [n_alg n_sig n_key n_exts last_value get_extension]. rewrite without_cons, E1.
        destruct (string_dec ALT_SIG ALT_SIG) as [_|Q]; [|now contradiction Q]. change (String.eqb ALT_SIG ALT_ALG) with false. change (String.eqb ALT_SIG ALT_SPKI) with false. change (String.eqb ALT_SIG ALT_SIG) with true.
        destruct (last_value l ALT_ALG); destruct (last_value l ALT_SIG); [reflexivity | | reflexivity | ]; rewrite D; reflexivity. }
      split.
      * intros H. bd H as s, D. apply whole_iff in D. apply IH in H. cbn [n_key] in H. destruct H as (W & K & ->). rewrite (Fin s D).
        split; [|auto]. split; [|assumption]. split; [eauto|]. split; contradiction.
      * intros (((W1 & _) & W) & K & ->). destruct (W1 E1) as (s & D). rewrite (proj2 (whole_iff _ _ _ _) D). cbn [bind]. apply IH. cbn [n_key]. rewrite (Fin s D). auto.
    + assert (x_id e <> ALT_SPKI) as N3 by (rewrite E2; discriminate). rewrite (KL N3).
      assert (forall s, l_algdec L (x_val e) = Some (s, []) -> final L l {| n_alg := Some s; n_sig := n_sig n; n_key := n_key n; n_exts := n_exts n ++ [e] |} = final L (e :: l) n) as Fin.
      { intros s D. unfold final. cbn [n_alg n_sig n_key n_exts last_value get_extension]. rewrite without_cons, E2.
        destruct (string_dec ALT_ALG ALT_SIG) as [Q|_]; [discriminate Q|]. change (String.eqb ALT_ALG ALT_ALG) with true. change (String.eqb ALT_ALG ALT_SPKI) with false. change (String.eqb ALT_ALG ALT_SIG) with false.
        rewrite <- app_assoc. destruct (last_value l ALT_ALG); destruct (last_value l ALT_SIG); try reflexivity; rewrite D; reflexivity. }
      split.
      * intros H. bd H as s, D. apply whole_iff in D. apply IH in H. cbn [n_key] in H. destruct H as (W & K & ->). rewrite (Fin s D).
        split; [|auto]. split; [|assumption]. split; [contradiction|]. split; [eauto | contradiction].
      * intros (((_ & W1 & _) & W) & K & ->). destruct (W1 E2) as (s & D). rewrite (proj2 (whole_iff _ _ _ _) D). cbn [bind]. apply IH. cbn [n_key]. rewrite (Fin s D). auto.
    + assert (forall s k, l_spkidec L (x_val e) = Some (s, []) -> (n_key n = Some k \/ (n_key n = None /\ l_load L s = Ok k)) ->
        final L l {| n_alg := n_alg n; n_sig := n_sig n; n_key := Some k; n_exts := n_exts n ++ [e] |} = final L (e :: l) n) as Fin.
      { intros s k D Hk. unfold final. cbn [n_alg n_sig n_key n_exts last_value get_extension]. rewrite without_cons, E3.
        destruct (string_dec ALT_SPKI ALT_SIG) as [Q|_]; [discriminate Q|]. change (String.eqb ALT_SPKI ALT_ALG) with false. change (String.eqb ALT_SPKI ALT_SPKI) with true. change (String.eqb ALT_SPKI ALT_SIG) with false.
        rewrite <- app_assoc. cbn [app]. f_equal; [now destruct (last_value l ALT_ALG) | now destruct (last_value l ALT_SIG) |].
        destruct Hk as [->|[-> Hk]]; [reflexivity|]. now rewrite D, Hk. }
      split.
      * intros H. bd H as s, D. bd H as k, K. apply whole_iff in D. apply IH in H. cbn [n_key] in H. destruct H as (W & _ & ->).
        assert (n_key n = Some k \/ n_key n = None /\ l_load L s = Ok k) as Hk by (destruct (n_key n); [left; congruence | right; auto]).
        rewrite (Fin s k D Hk). split; [|split; [|reflexivity]].
        -- split; [|assumption]. split; [contradiction|]. split; [contradiction|]. eauto.
        -- intros Eo x s' F D'. apply first_cons in F. destruct F as [[_ ->]|[Q _]]; [|contradiction]. exists k. destruct Hk as [Hk|[_ Hk]]; congruence.
      * intros (((_ & _ & W1) & W) & K & ->). destruct (W1 E3) as (s & D). rewrite (proj2 (whole_iff _ _ _ _) D). cbn [bind].
        assert (exists k, match n_key n with Some k => Ok k | None => l_load L s end = Ok k /\ (n_key n = Some k \/ n_key n = None /\ l_load L s = Ok k)) as (k & Ek & Hk).
        { destruct (n_key n) as [k|] eqn:En; [exists k; auto|]. destruct (K eq_refl e s) as (k & Q); [apply first_cons; auto | assumption|]. exists k. auto. }
        rewrite Ek. cbn [bind]. apply IH. cbn [n_key]. rewrite (Fin s k D Hk). split; [assumption|]. split; [intros Q; discriminate Q | reflexivity].
    + rewrite (KL E3).
      assert (final L l {| n_alg := n_alg n; n_sig := n_sig n; n_key := n_key n; n_exts := n_exts n ++ [e] |} = final L (e :: l) n) as Fin.
      { unfold final. cbn [n_alg n_sig n_key n_exts last_value get_extension]. rewrite without_cons.
        destruct (string_dec (x_id e) ALT_SIG) as [Q|_]; [contradiction|]. rewrite <- app_assoc.
        destruct (String.eqb_spec (x_id e) ALT_ALG); [contradiction|]. destruct (String.eqb_spec (x_id e) ALT_SPKI); [contradiction|]. destruct (String.eqb_spec (x_id e) ALT_SIG); [contradiction|].
        f_equal; [now destruct (last_value l ALT_ALG) | now destruct (last_value l ALT_SIG)]. }
      rewrite IH. cbn [n_key]. rewrite Fin. split; [intros (W & K & ->); split; [|auto]; split; [repeat split; contradiction | assumption] | intros ((_ & W) & K & ->); auto].
Qed.

Lemma alt_error_ok r : alt_error r = Ok tt <-> r = Ok tt.
Proof. destruct r as [[]|e]; cbn; [tauto|]. destruct e; cbn; split; discriminate. Qed.
Lemma last_get l o e : last_is l o e -> last_value l o = Some (x_val e).
Proof. intros H. apply last_value_some. eauto. Qed.
Definition start (alt : option pub) : scan := {| n_alg := None; n_sig := None; n_key := alt; n_exts := [] |}.
Lemma final_alt L l alt a q s : all_whole L l -> key_loads L l alt ->
  (n_alg (final L l (start alt)) = Some a /\ n_key (final L l (start alt)) = Some q /\ n_sig (final L l (start alt)) = Some s) <->
  alt_key L l alt q /\ (exists e, last_is l ALT_ALG e /\ l_algdec L (x_val e) = Some (a, [])) /\ (exists e, last_is l ALT_SIG e /\ l_bitsdec L (x_val e) = Some (s, [])).
Proof.
  intros W K. unfold final. cbn [n_alg n_key n_sig start].
  assert (forall o e, last_is l o e -> In e l) as LI by (intros o e (x & y & -> & _); apply in_app_iff; right; now left).
  assert (forall o e, last_is l o e -> x_id e = o) as LO by (intros o e (x & y & _ & H & _); exact H).
  split.
  - intros (H1 & H2 & H3). split; [|split].
    + unfold alt_key. destruct alt as [k|]; [congruence|]. destruct (get_extension l ALT_SPKI) as [e|] eqn:G; [|discriminate H2]. apply get_extension_some in G.
      assert (In e l /\ x_id e = ALT_SPKI) as [I O] by (destruct G as (x & y & -> & H & _); split; [apply in_app_iff; right; now left | exact H]).
      destruct (W e I) as (_ & _ & W3). destruct (W3 O) as (s' & D). rewrite D in H2. exists e, s'. split; [assumption|]. split; [assumption|].
      destruct (l_load L s'); [congruence | discriminate H2].
    + destruct (last_value l ALT_ALG) as [v|] eqn:E; [|discriminate H1]. apply last_value_some in E. destruct E as (e & Le & <-).
      destruct (W e (LI _ _ Le)) as (_ & W2 & _). destruct (W2 (LO _ _ Le)) as (a' & D). rewrite D in H1. cbn in H1. exists e. split; [assumption | congruence].
    + destruct (last_value l ALT_SIG) as [v|] eqn:E; [|discriminate H3]. apply last_value_some in E. destruct E as (e & Le & <-).
      destruct (W e (LI _ _ Le)) as (W1 & _ & _). destruct (W1 (LO _ _ Le)) as (a' & D). rewrite D in H3. cbn in H3. exists e. split; [assumption | congruence].
  - intros (H1 & (e2 & L2 & D2) & (e3 & L3 & D3)). rewrite (last_get _ _ _ L2), (last_get _ _ _ L3), D2, D3. cbn. split; [reflexivity|]. split; [|reflexivity].
    unfold alt_key in H1. destruct alt as [k|]; [congruence|]. destruct H1 as (e & s' & F & D & Q). apply get_extension_some in F. now rewrite F, D, Q.
Qed.
Lemma last_ne l o o' e : last_is l o e -> o <> o' -> without o' l <> [].
Proof.
  intros (x & y & -> & H & _) N. rewrite without_app, without_cons. destruct (string_dec (x_id e) o') as [E|_]; [congruence|]. now destruct (without o' x).
Qed.

Theorem crl_iff L r ca alt must : fst (verify_crl L r ca alt must) = Ok tt <->
  ca_signed L r ca /\
  ((r_exts r = None /\ must = false) \/
   exists l a q s, r_exts r = Some l /\ alt_signed L l alt a q s /\ l_verify_alg L q a (crl_covered L r l) s = Ok tt).
Proof.
  unfold verify_crl. fold (start alt). split.
  - destruct (bind _ _) as [o|e] eqn:E; [|discriminate]. bd E as h, G. bd E as k, K. bd E as k', K'. apply ensure_iff in K'. destruct K' as [Vk ->]. bd E as [], S1.
    assert (ca_signed L r ca) as C by (exists h, k; auto). destruct (r_exts r) as [l|] eqn:X.
    + bd E as n, Sc. injection E as <-. apply scan_iff in Sc. destruct Sc as (W & KL & ->). cbn [fst]. intros H. split; [assumption|]. right.
      destruct (n_alg (final L l (start alt))) as [a|] eqn:Ea; [|discriminate H]. destruct (n_key (final L l (start alt))) as [q|] eqn:Eq; [|discriminate H].
      destruct (n_sig (final L l (start alt))) as [s|] eqn:Es; [|discriminate H]. cbn [n_key start] in KL.
      destruct (proj1 (final_alt L l alt a q s W KL) (conj Ea (conj Eq Es))) as (A1 & A2 & A3).
      bd H as q', Q'. apply ensure_iff in Q'. destruct Q' as [Vq ->]. apply (proj1 (alt_error_ok _)) in H. exists l, a, q, s. split; [reflexivity|].
      split; [unfold alt_signed; auto|]. cbn [set_rexts r_rest r_exts final n_exts start app] in H. unfold crl_covered.
      destruct A2 as (e2 & L2 & _). destruct (without ALT_SIG l) eqn:Wn; [|exact H]. exfalso. apply (last_ne _ _ ALT_SIG _ L2); [discriminate | assumption].
    + injection E as <-. cbn [fst]. intros H. apply guard_iff in H. split; [assumption|]. left. split; [reflexivity|]. now destruct must.
  - intros ((h & k & G & K & Vk & S1) & D). rewrite G. cbn [bind]. rewrite K. cbn [bind]. unfold ensure_verify at 1. rewrite Vk. cbn [guard bind]. rewrite S1. cbn [bind].
    destruct D as [[X ->]|(l & a & q & s & X & (W & A1 & Vq & A2 & A3) & S2)]; rewrite X; [reflexivity|]. fold (start alt).
    assert (key_loads L l alt) as KL.
    { intros -> e s' F D. destruct A1 as (e' & s'' & F' & D' & Q). apply get_extension_some in F, F'. assert (e' = e) as -> by congruence. exists q. congruence. }
    assert (crl_scan L l (start alt) = Ok (final L l (start alt))) as -> by (apply scan_iff; auto). cbn [bind fst].
    destruct (proj2 (final_alt L l alt a q s W KL) (conj A1 (conj A2 A3))) as (-> & -> & ->). unfold ensure_verify. rewrite Vq. cbn [guard bind].
    apply (proj2 (alt_error_ok _)). cbn [set_rexts r_rest r_exts final n_exts start app]. unfold crl_covered in S2.
    destruct A2 as (e2 & L2 & _). destruct (without ALT_SIG l) eqn:Wn; [|exact S2]. exfalso. apply (last_ne _ _ ALT_SIG _ L2); [discriminate | assumption].
Qed.
(** The exception of an invalid alternative signature. *)
Theorem crl_alt_invalid L r ca alt must l a q s : ca_signed L r ca -> r_exts r = Some l -> alt_signed L l alt a q s ->
  l_verify_alg L q a (crl_covered L r l) s = Err EInvalidSignature -> fst (verify_crl L r ca alt must) = Err EInvalidAltSignature.
Proof.
  intros (h & k & G & K & Vk & S1) X (W & A1 & Vq & A2 & A3) S2. unfold verify_crl. fold (start alt). rewrite G. cbn [bind]. rewrite K. cbn [bind]. unfold ensure_verify at 1. rewrite Vk. cbn [guard bind]. rewrite S1. cbn [bind]. rewrite X.
  assert (key_loads L l alt) as KL.
  { intros -> e s' F D. destruct A1 as (e' & s'' & F' & D' & Q). apply get_extension_some in F, F'. assert (e' = e) as -> by congruence. exists q. congruence. }
  assert (crl_scan L l (start alt) = Ok (final L l (start alt))) as -> by (apply scan_iff; auto). cbn [bind fst].
  destruct (proj2 (final_alt L l alt a q s W KL) (conj A1 (conj A2 A3))) as (-> & -> & ->). unfold ensure_verify. rewrite Vq. cbn [guard bind].
  cbn [set_rexts r_rest r_exts final n_exts start app]. unfold crl_covered in S2.
  destruct A2 as (e2 & L2 & _). destruct (without ALT_SIG l) eqn:Wn; [exfalso; apply (last_ne _ _ ALT_SIG _ L2); [discriminate | assumption]|]. now rewrite S2.
Qed.
(** A list with extensions is accepted only with an alternative signature. *)
Theorem crl_plain L r ca alt must l : r_exts r = Some l -> ~ occurs ALT_SIG l -> fst (verify_crl L r ca alt must) <> Ok tt.
Proof.
  intros X N H. apply crl_iff in H. destruct H as (_ & [[Y _]|(l' & a & q & s & Y & (_ & _ & _ & _ & e & (x & y & E & O & _) & _) & _)]); [congruence|].
  assert (l' = l) as -> by congruence. apply N. rewrite E. exists e. split; [apply in_app_iff; right; now left | assumption].
Qed.
Theorem crl_plain_error L r ca alt must l : r_exts r = Some l -> ca_signed L r ca -> ~ occurs ALT_SIG l -> ~ occurs ALT_ALG l -> ~ occurs ALT_SPKI l ->
  fst (verify_crl L r ca alt must) = Err EValueError.
Proof.
  intros X (h & k & G & K & Vk & S1) N1 N2 N3. unfold verify_crl. fold (start alt). rewrite G. cbn [bind]. rewrite K. cbn [bind]. unfold ensure_verify at 1. rewrite Vk. cbn [guard bind]. rewrite S1. cbn [bind]. rewrite X.
  assert (crl_scan L l (start alt) = Ok (final L l (start alt))) as ->.
  { apply scan_iff. split; [|split; [|reflexivity]].
    - intros e I. repeat split; intros Q; exfalso; [apply N1 | apply N2 | apply N3]; now exists e.
    - intros _ e s' F _. exfalso. apply N3. destruct F as (x & y & -> & O & _). exists e. split; [apply in_app_iff; right; now left | assumption]. }
  cbn [bind fst]. apply last_value_none in N1, N2. unfold final at 1. cbn [n_alg start]. now rewrite N2.
Qed.
(** Once verified, a list is no longer accepted: its alternative signature has been removed. *)
Lemma without_none o l : ~ occurs o (without o l).
Proof.
  intros (e & H & E). unfold without in H. apply filter_In in H. destruct H as [_ H]. destruct (string_dec (x_id e) o); [discriminate H | contradiction].
Qed.
Theorem crl_after L r ca alt must l : r_exts r = Some l -> fst (verify_crl L r ca alt must) = Ok tt ->
  snd (verify_crl L r ca alt must) = set_rexts r (Some (without ALT_SIG l)).
Proof.
  intros X H. pose proof H as H'. apply crl_iff in H'. destruct H' as (_ & [[Y _]|(l' & a & q & s & Y & (_ & _ & _ & (e2 & L2 & _) & _) & _)]); [congruence|].
  assert (l' = l) as -> by congruence. revert H. unfold verify_crl. fold (start alt). destruct (bind _ _) as [o|e] eqn:E; [|discriminate].
  bd E as h, G. bd E as k, K. bd E as k', K'. bd E as [], S1. rewrite X in E. bd E as n, Sc. injection E as <-. intros _. cbn [snd].
  apply scan_iff in Sc. destruct Sc as (_ & _ & ->). cbn [final n_exts start app]. destruct (without ALT_SIG l) eqn:Wn; [|reflexivity].
  exfalso. apply (last_ne _ _ ALT_SIG _ L2); [discriminate | assumption].
Qed.
Theorem crl_once L r ca alt must l : r_exts r = Some l -> fst (verify_crl L r ca alt must) = Ok tt ->
  forall ca' alt' must', fst (verify_crl L (snd (verify_crl L r ca alt must)) ca' alt' must') <> Ok tt.
Proof.
  intros X H ca' alt' must'. rewrite (crl_after _ _ _ _ _ _ X H). eapply crl_plain; [reflexivity | apply without_none].
Qed.

(** ** Signing *)

Theorem sign_crl_round_trip L r ca alt incl h ah pss crit ca_info given must r' : cat_laws L ->
  sound_hash L ca h pss -> l_load L ca_info = Ok (l_pub L ca) -> l_verifies L (l_pub L ca) = true ->
  sound_alg L alt (str_or ah h) pss false -> l_verifies L (l_pub L alt) = true ->
  all_whole L (exts_of (r_exts r)) -> ~ occurs ALT_SIG (exts_of (r_exts r)) ->
  (given = Some (l_pub L alt) \/ (given = None /\ incl = true /\ ~ occurs ALT_SPKI (exts_of (r_exts r)))) ->
  sign_crl L r ca (Some alt) incl h ah pss crit false false = Ok r' -> fst (verify_crl L r' ca_info given must) = Ok tt.
Proof.
  intros HL Hc Lc Vc Ha Va W N Gv H. unfold sign_crl, prepare_alt_alg, prepare_alt_spki, prepare_alt_sig in H.
  bd H as a, Ea. bd H as x, Ex. bd H as s, Es. cbn [bind] in H. injection H as <-.
  bd Ex as e1, E1. bd E1 as aa, E1a. injection E1 as <-. bd Ex as x2, E2. bd Ex as s2, E3. cbn [bind] in Ex. injection Ex as <-.
  destruct (Hc _ _ _ Ea Es) as (hh & G & S1). apply crl_iff. split; [exists hh, (l_pub L ca); auto|]. right.
  set (l := exts_of x2). assert (x2 = Some l /\ all_whole L l /\ ~ occurs ALT_SIG l /\ (exists e, last_is l ALT_ALG e /\ l_algdec L (x_val e) = Some (aa, [])) /\ alt_key L l given (l_pub L alt)) as (X2 & Wl & Nl & A2 & A1).
  { assert (forall l0 e, all_whole L l0 -> (x_id e = ALT_ALG -> exists a0, l_algdec L (x_val e) = Some (a0, [])) -> (x_id e = ALT_SPKI -> exists a0, l_spkidec L (x_val e) = Some (a0, [])) -> x_id e <> ALT_SIG -> all_whole L (l0 ++ [e])) as WA.
    { intros l0 e W0 Q1 Q2 Q3 y I. apply in_app_iff in I. destruct I as [I|[<-|[]]]; [now apply W0|]. split; [contradiction | auto]. }
    assert (forall l0 e, ~ occurs ALT_SIG l0 -> x_id e <> ALT_SIG -> ~ occurs ALT_SIG (l0 ++ [e])) as NA.
    { intros l0 e N0 Q Q'. apply occurs_app in Q'. destruct Q' as [Q'|Q']; [contradiction|]. apply occurs_cons in Q'. destruct Q' as [Q'|Q']; [contradiction | now apply occurs_nil in Q']. }
    destruct incl.
    - bd E2 as e2, E4. bd E4 as sk, E4a. injection E4 as <-. injection E2 as <-. subst l. unfold add_ext. cbn [exts_of]. split; [reflexivity|]. split; [|split; [|split]].
      + apply WA; [apply WA; [assumption | intros _; eexists; apply (cl_alg _ HL) | intros Q; discriminate Q | discriminate] | intros Q; discriminate Q | intros _; eexists; apply (cl_spki _ HL) | discriminate].
      + apply NA; [apply NA; [assumption | discriminate] | discriminate].
      + eexists. split; [apply last_is_other; [apply last_is_app; reflexivity | discriminate] | apply (cl_alg _ HL)].
      + destruct Gv as [->|(-> & _ & N3)]; [reflexivity|]. cbn [alt_key]. exists {| x_id := ALT_SPKI; x_crit := crit; x_val := l_spkienc L sk |}, sk. split; [|split; [apply (cl_spki _ HL) | now apply (cl_load _ HL)]].
        eexists; exists []. split; [reflexivity|]. split; [reflexivity|]. rewrite occurs_app, occurs_cons. intros [Q|[Q|Q]]; [contradiction | discriminate Q | now apply occurs_nil in Q].
    - injection E2 as <-. subst l. unfold add_ext. cbn [exts_of]. split; [reflexivity|]. split; [|split; [|split]].
      + apply WA; [assumption | intros _; eexists; apply (cl_alg _ HL) | intros Q; discriminate Q | discriminate].
      + apply NA; [assumption | discriminate].
      + eexists. split; [apply last_is_app; reflexivity | apply (cl_alg _ HL)].
      + destruct Gv as [->|(_ & Q & _)]; [reflexivity | discriminate Q]. }
  clearbody l. subst x2. cbn [r_exts add_ext exts_of]. exists (l ++ [{| x_id := ALT_SIG; x_crit := crit; x_val := l_bitsenc L s2 |}]), aa, (l_pub L alt), s2. split; [reflexivity|].
  assert (without ALT_SIG l = l) as Wl'.
  { clear - Nl. induction l as [|e l IH]; [reflexivity|]. rewrite occurs_cons in Nl. rewrite without_cons. destruct (string_dec (x_id e) ALT_SIG); [tauto|]. f_equal. apply IH. tauto. }
  split.
  - split; [|split; [|split; [assumption|split]]].
    + intros y I. apply in_app_iff in I. destruct I as [I|[<-|[]]]; [now apply Wl|]. cbn [x_id x_val]. split; [intros _; eexists; apply (cl_bits _ HL) | split; intros Q; discriminate Q].
    + destruct given as [g|]; [exact A1|]. destruct A1 as (e & s' & (x & y & E & O & F) & D & Q). exists e, s'. split; [|auto]. exists x, (y ++ [{| x_id := ALT_SIG; x_crit := crit; x_val := l_bitsenc L s2 |}]).
      split; [now rewrite E, <- app_assoc | auto].
    + destruct A2 as (e & Le & De). exists e. split; [apply last_is_other; [assumption | discriminate] | assumption].
    + eexists. split; [apply last_is_app; reflexivity | apply (cl_bits _ HL)].
  - unfold crl_covered. rewrite without_app, Wl'. cbn [r_rest r_alg]. assert (without ALT_SIG [{| x_id := ALT_SIG; x_crit := crit; x_val := l_bitsenc L s2 |}] = []) as -> by reflexivity.
    rewrite app_nil_r. exact (Ha _ _ _ E1a E3).
Qed.
Theorem sign_crl_plain L r ca h pss crit ah bad ca_info given r' : r_exts r = None -> sound_hash L ca h pss -> l_load L ca_info = Ok (l_pub L ca) -> l_verifies L (l_pub L ca) = true ->
  sign_crl L r ca None bad h ah pss crit false false = Ok r' -> fst (verify_crl L r' ca_info given false) = Ok tt.
Proof.
  intros X Hc Lc Vc H. unfold sign_crl in H. bd H as a, Ea. cbn [bind] in H. bd H as s, Es. injection H as <-.
  destruct (Hc _ _ _ Ea Es) as (hh & G & S1). apply crl_iff. split; [exists hh, (l_pub L ca); auto | left; auto].
Qed.

(** ** The form of what is signed *)
Lemma sign_crl_iff L r ca alt incl h ah pss crit bad badalt r' :
  sign_crl L r ca alt incl h ah pss crit bad badalt = Ok r' <->
  exists s, l_sigalg L ca h pss = Ok (r_alg r') /\ r_rest r' = r_rest r
    /\ match alt with
       | None => r_exts r' = r_exts r
       | Some k => crl_extended L r k incl (str_or ah h) pss crit badalt (r_alg r') (r_exts r')
       end
    /\ l_sign L ca (l_crlenc L (r_rest r) (r_exts r')) h false = Ok s
    /\ (if bad then l_spoil L s ca = Ok (r_sig r') else r_sig r' = s).
Proof.
  unfold sign_crl. split.
  - intros H. bd H as a, A. bd H as x, X. bd H as s, S1. bd H as s', S2. injection H as <-. cbn [r_rest r_exts r_alg r_sig].
    exists s. split; [exact A|]. split; [reflexivity|]. split; [|split; [exact S1|destruct bad; [exact S2|congruence]]].
    destruct alt as [k|]; [|congruence]. unfold prepare_alt_alg, prepare_alt_spki, prepare_alt_sig in X.
    bd X as e1, E1. bd E1 as aa, AA. injection E1 as <-. bd X as x2, X2. bd X as sa, SA. bd X as sb, SB. injection X as <-.
    exists aa. destruct incl.
    + bd X2 as e2, E2. bd E2 as sk, SK. injection E2 as <-. injection X2 as <-. eexists. exists sa, sb. split; [exact AA|].
      split; [exists sk; split; [exact SK|reflexivity]|]. cbv zeta. unfold add_ext in *. cbn [exts_of] in *. rewrite <- !app_assoc in *. cbn [app] in *.
      split; [exact SA|]. split; [destruct badalt; [exact SB|congruence]|]. reflexivity.
    + injection X2 as <-. exists [], sa, sb. split; [exact AA|]. split; [reflexivity|]. cbv zeta. unfold add_ext in *. cbn [exts_of] in *.
      split; [exact SA|]. split; [destruct badalt; [exact SB|congruence]|]. rewrite <- !app_assoc. reflexivity.
  - intros (s & A & R & X & S1 & S2). destruct r' as [rest x a sg]. cbn [r_rest r_exts r_alg r_sig] in *. subst rest. rewrite A. cbn [bind].
    assert ((if bad then l_spoil L s ca else Ok s) = Ok sg) as S3 by (destruct bad; [exact S2|congruence]).
    destruct alt as [k|].
    + destruct X as (aa & more & sa & sb & AA & M & SA & SB & ->). unfold prepare_alt_alg, prepare_alt_spki, prepare_alt_sig. rewrite AA. cbn [bind].
      assert ((if badalt then l_spoil L sa k else Ok sa) = Ok sb) as SC by (destruct badalt; [exact SB|congruence]).
      destruct incl.
      * destruct M as (sk & SK & ->). rewrite SK. cbn [bind]. unfold add_ext. cbn [exts_of]. rewrite <- !app_assoc. cbn [app]. rewrite SA. cbn [bind]. rewrite SC. cbn [bind].
        rewrite <- !app_assoc in S1. cbn [app] in S1. rewrite <- ?app_assoc. cbn [app]. rewrite S1. cbn [bind]. rewrite S3. reflexivity.
      * subst more. unfold add_ext. cbn [exts_of bind]. rewrite SA. cbn [bind]. rewrite SC. cbn [bind]. rewrite S1. cbn [bind]. rewrite S3. reflexivity.
    + subst x. cbn [bind]. rewrite S1. cbn [bind]. rewrite S3. reflexivity.
Qed.
Lemma str_or_iff ah h hh : other_or ah h hh <-> hh = str_or ah h.
Proof.
  unfold other_or, str_or. destruct ah as [x|].
  - destruct (String.eqb_spec x "") as [->|N]; split.
    + intros [(_ & _ & Q)|(Q & _)]; [now destruct Q|exact Q].
    + intros ->. right. split; [reflexivity|now right].
    + intros [(Q & _)|(_ & [Q|Q])]; [exact Q|discriminate Q|congruence].
    + intros ->. left. repeat split; [discriminate|congruence].
  - split; [intros [(_ & Q & _)|(Q & _)]; [now destruct Q|exact Q]|]. intros ->. right. split; [reflexivity|now left].
Qed.
Lemma sign_crl_form L r ca alt incl h ah pss crit bad badalt r' :
  sign_crl L r ca alt incl h ah pss crit bad badalt = Ok r' <->
  exists s hh, other_or ah h hh /\ l_sigalg L ca h pss = Ok (r_alg r') /\ r_rest r' = r_rest r
    /\ match alt with
       | None => r_exts r' = r_exts r
       | Some k => crl_extended L r k incl hh pss crit badalt (r_alg r') (r_exts r')
       end
    /\ l_sign L ca (l_crlenc L (r_rest r) (r_exts r')) h false = Ok s
    /\ (if bad then l_spoil L s ca = Ok (r_sig r') else r_sig r' = s).
Proof.
  rewrite sign_crl_iff. split.
  - intros (s & H). exists s, (str_or ah h). split; [now apply str_or_iff|exact H].
  - intros (s & hh & E & H). apply str_or_iff in E. subst hh. exists s. exact H.
Qed.
