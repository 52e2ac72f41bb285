(** Proofs about catalyst certificates. *)
From Coq Require Import String Ascii.
From Verif Require Import Prelude PyStr PyStrProofs ProtTab ProtMac CatModel CatSpec.
Open Scope string_scope.
Open Scope Z_scope.
Open Scope list_scope.
Local Notation oid := ProtTab.oid.

Lemma guard_iff b e u : guard b e = Ok u <-> b = true.
Proof. destruct u, b; cbn; split; congruence. Qed.
Tactic Notation "bd" hyp(H) "as" simple_intropattern(p) "," ident(E) :=
  apply bind_inv in H; destruct H as (p & E & H); first [apply guard_iff in E | idtac].

(** ** Lists of extensions *)

Lemma occurs_cons o e l : occurs o (e :: l) <-> x_id e = o \/ occurs o l.
Proof.
  split; [intros (x & [->|H] & E); [now left | right; now exists x] | intros [E|(x & H & E)]; [exists e | exists x]; split; auto; [now left | now right]].
Qed.
Lemma occurs_nil o : ~ occurs o []. Proof. now intros (e & [] & _). Qed.
Lemma occurs_app o a b : occurs o (a ++ b) <-> occurs o a \/ occurs o b.
Proof.
  split.
  - intros (e & H & E). apply in_app_iff in H. destruct H; [left | right]; now exists e.
  - intros [(e & H & E)|(e & H & E)]; exists e; (split; [apply in_app_iff; auto | assumption]).
Qed.
Lemma last_value_none l o : last_value l o = None <-> ~ occurs o l.
Proof.
  induction l as [|e l IH]; cbn [last_value]; [split; [intros _; apply occurs_nil | reflexivity]|]. rewrite occurs_cons.
  destruct (last_value l o) as [v|]; split.
  - discriminate.
  - intros H. assert (occurs o l); [|tauto]. destruct IH as [_ IH]. clear H. assert (~ ~ occurs o l).
    { intros N. discriminate (IH N). } 
    clear IH. revert H. clear. induction l as [|e l IH]; [intros H; exfalso; apply H, occurs_nil|]. rewrite occurs_cons. intros H.
    destruct (string_dec (x_id e) o) as [E|E]; [now left|]. right. apply IH. intros N. apply H. tauto.
  - intros H. destruct (String.eqb_spec (x_id e) o); [discriminate|]. intros [E|E]; [contradiction|]. now apply IH.
  - intros H. destruct (String.eqb_spec (x_id e) o); [|reflexivity]. exfalso. auto.
Qed.
Lemma last_value_some l o v : last_value l o = Some v <-> exists e, last_is l o e /\ x_val e = v.
Proof.
  induction l as [|e l IH]; cbn [last_value].
  - split; [discriminate | intros (x & (a & b & H & _) & _); now destruct a].
  - destruct (last_value l o) as [w|] eqn:E.
    + split.
      * intros [= ->]. destruct IH as [IH _]. destruct (IH eq_refl) as (x & (a & b & -> & I & N) & V). exists x. split; [|assumption].
        exists (e :: a), b. auto.
      * intros (x & (a & b & H & I & N) & V). destruct a as [|y a]; injection H as -> ->.
        -- exfalso. apply last_value_none in N. congruence.
        -- apply IH. exists x. split; [now exists a, b | assumption].
    + apply last_value_none in E. destruct (String.eqb_spec (x_id e) o) as [I|I]; split; try discriminate.
      * intros [= <-]. exists e. split; [now exists [], l | reflexivity].
      * intros (x & (a & b & H & J & N) & V). destruct a as [|y a]; injection H as -> ->; [now subst|].
        exfalso. apply E, occurs_app. right. apply occurs_cons. now left.
      * intros (x & (a & b & H & J & N) & V). destruct a as [|y a]; injection H as -> ->; [contradiction|].
        exfalso. apply E, occurs_app. right. apply occurs_cons. now left.
Qed.
Lemma get_extension_some l o e : get_extension l o = Some e <-> first_is l o e.
Proof.
  induction l as [|x l IH]; cbn [get_extension].
  - split; [discriminate | intros (a & b & H & _); now destruct a].
  - destruct (String.eqb_spec (x_id x) o) as [I|I]; split.
    + intros [= ->]. exists [], l. split; [reflexivity|]. split; [assumption | apply occurs_nil].
    + intros (a & b & H & J & N). destruct a as [|y a]; injection H as -> ->; [reflexivity|]. exfalso. apply N, occurs_cons. now left.
    + intros H. apply IH in H. destruct H as (a & b & -> & J & N). exists (x :: a), b. split; [reflexivity|]. split; [assumption|].
      rewrite occurs_cons. tauto.
    + intros (a & b & H & J & N). destruct a as [|y a]; injection H as -> ->; [contradiction|]. apply IH. exists a, b.
      split; [reflexivity|]. split; [assumption|]. intros Q. apply N, occurs_cons. now right.
Qed.
Lemma get_extension_none l o : get_extension l o = None <-> ~ occurs o l.
Proof.
  induction l as [|x l IH]; cbn [get_extension]; [split; [intros _; apply occurs_nil | reflexivity]|]. rewrite occurs_cons.
  destruct (String.eqb_spec (x_id x) o); [split; [discriminate | tauto] | rewrite IH; tauto].
Qed.
Lemma filter_without o l : filter (fun e => negb (String.eqb (x_id e) o)) l = without o l.
Proof.
  unfold without. apply filter_ext. intros e. destruct (String.eqb_spec (x_id e) o), (string_dec (x_id e) o); cbn; try reflexivity; contradiction.
Qed.
Lemma without_app o a b : without o (a ++ b) = without o a ++ without o b.
Proof. apply filter_app. Qed.
Lemma last_is_app l o e : x_id e = o -> last_is (l ++ [e]) o e.
Proof. intros E. exists l, []. split; [reflexivity|]. split; [assumption | apply occurs_nil]. Qed.
Lemma last_is_other l o e x : last_is l o e -> x_id x <> o -> last_is (l ++ [x]) o e.
Proof.
  intros (a & b & -> & E & N) D. exists a, (b ++ [x]). split; [now rewrite <- app_assoc|]. split; [assumption|].
  rewrite occurs_app, occurs_cons. intros [Q|[Q|Q]]; [contradiction | contradiction | now apply occurs_nil in Q].
Qed.

(** ** The three extensions *)

Lemma has_dot n : has_char "."%char n = true <-> In "."%char (list_ascii_of_string n).
Proof.
  rewrite has_char_spec. induction n as [|c n IH]; cbn; [tauto|]. rewrite IH. tauto.
Qed.
Lemma rlookup_by_oid n l : rlookup n (by_oid l) = if in_dec string_dec n l then Some (pq n) else None.
Proof.
  induction l as [|x l IH]; cbn [by_oid map rlookup]; [destruct (in_dec string_dec n []) as [[]|]; reflexivity|].
  fold (by_oid l). rewrite IH. destruct (String.eqb_spec n x) as [->|D].
  - destruct (in_dec string_dec x (x :: l)) as [|N]; [reflexivity | exfalso; apply N; now left].
  - destruct (in_dec string_dec n l) as [I|I], (in_dec string_dec n (x :: l)) as [J|J]; try reflexivity.
    + exfalso. apply J. now right.
    + exfalso. destruct J; [congruence | contradiction].
Qed.
Lemma alg_demanded_iff L a must : alg_demanded L a must = Ok tt <-> demanded L a must.
Proof.
  unfold alg_demanded, demanded. destruct must as [n|]; [|tauto]. destruct (has_char "."%char n) eqn:D.
  - apply has_dot in D. rewrite guard_iff, String.eqb_eq. intuition.
  - assert (~ In "."%char (list_ascii_of_string n)) as N by (rewrite <- has_dot; congruence).
    unfold PQ_OID_2_NAME. rewrite rlookup_by_oid. destruct (in_dec string_dec n PQ_NAMES) as [I|I].
    + rewrite guard_iff, String.eqb_eq. intuition congruence.
    + split; [discriminate | intuition].
Qed.
Lemma decoded_iff A (d : bytes -> option (A * bytes)) b p : decoded d b = Ok p <-> d b = Some p.
Proof. unfold decoded. destruct (d b); split; congruence. Qed.

Theorem extensions_iff L c must v : validate_extensions L c must = Ok (Some v) <->
  exists l, t_exts (c_tbs c) = Some l /\ has_values L l v /\ demanded L (v_alg v) must.
Proof.
  unfold validate_extensions. destruct (t_exts (c_tbs c)) as [l|]; [|split; [discriminate | intros (l & H & _); discriminate H]].
  split.
  - destruct (last_value l ALT_SPKI) as [vk|] eqn:Ek, (last_value l ALT_ALG) as [va|] eqn:Ea, (last_value l ALT_SIG) as [vs|] eqn:Es;
      intros H; try discriminate H.
    bd H as [k rk], H1. bd H as [a ra], H2. bd H as [s rs], H3. bd H as [], H4. bd H as [], H5.
    apply decoded_iff in H1, H2, H3. destruct rs; [|discriminate H4]. injection H as <-. apply alg_demanded_iff in H5.
    apply last_value_some in Ek, Ea, Es. destruct Ek as (ek & Lk & <-), Ea as (ea & La & <-), Es as (es & Ls & <-).
    exists l. split; [reflexivity|]. split; [|exact H5]. unfold has_values. cbn [v_spki v_alg v_sig]. eauto 12.
  - intros (l' & H & ((ek & rk & Lk & Dk) & (ea & ra & La & Da) & (es & Ls & Ds)) & Q). injection H as <-.
    assert (last_value l ALT_SPKI = Some (x_val ek)) as -> by (apply last_value_some; eauto).
    assert (last_value l ALT_ALG = Some (x_val ea)) as -> by (apply last_value_some; eauto).
    assert (last_value l ALT_SIG = Some (x_val es)) as -> by (apply last_value_some; eauto).
    unfold decoded. rewrite Dk, Da, Ds. cbn [bind guard]. apply alg_demanded_iff in Q. rewrite Q. cbn [bind]. now destruct v.
Qed.
Theorem extensions_none L c must : validate_extensions L c must = Ok None <->
  ~ occurs ALT_SPKI (exts_of (t_exts (c_tbs c))) /\ ~ occurs ALT_ALG (exts_of (t_exts (c_tbs c))) /\ ~ occurs ALT_SIG (exts_of (t_exts (c_tbs c))).
Proof.
  unfold validate_extensions. destruct (t_exts (c_tbs c)) as [l|]; cbn [exts_of].
  - rewrite <- !last_value_none.
    destruct (last_value l ALT_SPKI) as [vk|], (last_value l ALT_ALG) as [va|], (last_value l ALT_SIG) as [vs|]; split; intros H;
      try discriminate H; try (destruct H as (H1 & H2 & H3); congruence); [|repeat split].
    bd H as [k rk], H1. bd H as [a ra], H2. bd H as [s rs], H3. bd H as [], H4. bd H as [], H5. discriminate H.
  - split; [intros _; repeat split; apply occurs_nil | reflexivity].
Qed.
Lemma demanded_err L a must e : alg_demanded L a must = Err e -> e = EKeyError \/ e = EBadAlg.
Proof.
  unfold alg_demanded. destruct must as [n|]; [|discriminate]. destruct (has_char "."%char n).
  - destruct (String.eqb _ _); cbn; [discriminate | intros [= <-]; auto].
  - destruct (rlookup n PQ_OID_2_NAME); [|intros [= <-]; auto]. destruct (String.eqb _ _); cbn; [discriminate | intros [= <-]; auto].
Qed.
Theorem extensions_some L c must : let l := exts_of (t_exts (c_tbs c)) in
  validate_extensions L c must = Err EValueError <->
  (occurs ALT_SPKI l \/ occurs ALT_ALG l \/ occurs ALT_SIG l) /\ ~ (occurs ALT_SPKI l /\ occurs ALT_ALG l /\ occurs ALT_SIG l).
Proof.
  intros l. assert (forall o, occurs o l <-> last_value l o <> None) as Q.
  { intros o. rewrite last_value_none. split; [tauto|]. intros N. generalize l N. clear. intros l.
    induction l as [|e l IH]; intros N; [exfalso; apply N, occurs_nil|]. rewrite occurs_cons in *.
    destruct (string_dec (x_id e) o); [now left|]. right. apply IH. tauto. }
  rewrite !Q. unfold validate_extensions. destruct (t_exts (c_tbs c)) as [l'|]; cbn [exts_of] in l; subst l.
  - destruct (last_value l' ALT_SPKI) as [vk|], (last_value l' ALT_ALG) as [va|], (last_value l' ALT_SIG) as [vs|];
      try (split; [intros _; split; [|intros (A & B & C); congruence]; first [left; discriminate | right; left; discriminate | right; right; discriminate] | reflexivity]).
    + split; intros H; exfalso; [|destruct H as [_ H]; apply H; repeat split; congruence].
      unfold decoded in H. destruct (l_spkidec L vk) as [[pk rk]|]; [|discriminate H]. cbn in H.
      destruct (l_algdec L va) as [[pa ra]|]; [|discriminate H]. cbn in H. destruct (l_bitsdec L vs) as [[ps [|]]|]; [|discriminate H|discriminate H].
      cbn in H. destruct (alg_demanded L pa must) as [[]|x] eqn:E; [discriminate H|]. cbn in H. apply demanded_err in E. destruct E; congruence.
    + split; [discriminate|]. intros [[A|[A|A]] _]; now contradiction A.
  - cbn. split; [discriminate|]. intros [[A|[A|A]] _]; now contradiction A.
Qed.

(** ** Verifying *)

Lemma ensure_iff L k k' : ensure_verify L k = Ok k' <-> l_verifies L k = true /\ k' = k.
Proof. unfold ensure_verify. destruct (l_verifies L k); cbn; split; [intros [= <-]; auto | intros [_ ->]; reflexivity | discriminate | intros [H _]; discriminate H]. Qed.
Lemma alt_data_eq L c : alt_data L (c_tbs c) = covered L c.
Proof. unfold alt_data, covered, pre_tbs. now rewrite filter_without. Qed.
Theorem verify_iff L c issuer key must : verify_catalyst L c issuer key must = Ok tt <->
  exists l v k, t_exts (c_tbs c) = Some l /\ has_values L l v /\ demanded L (v_alg v) must /\ signer_key L c issuer key k /\ catalyst_valid L c k v.
Proof.
  unfold verify_catalyst. split.
  - intros H. bd H as v, V. destruct v as [v|]; [|discriminate H]. bd H as k, K. bd H as k', K'. apply ensure_iff in K'. destruct K' as [Vk ->].
    bd H as [], S1. bd H as q, Q. bd H as h, G. bd H as q', Q'. apply ensure_iff in Q'. destruct Q' as [Vq ->].
    apply extensions_iff in V. destruct V as (l & E & V & D). exists l, v, k. split; [assumption|]. split; [assumption|]. split; [assumption|]. split.
    + unfold signer_key. destruct issuer; [assumption|]. destruct key; [congruence | assumption].
    + unfold verify_cert_signature in S1. bd S1 as k2, K2. apply ensure_iff in K2. destruct K2 as [_ ->].
      destruct (t_alg (c_tbs c)) as [a|] eqn:Ta; [|discriminate S1]. split; [assumption|]. split; [eauto|]. exists q, h.
      rewrite alt_data_eq in H. auto.
  - intros (l & v & k & E & V & D & K & Vk & (a & Ta & S1) & q & h & Q & Vq & G & S2).
    assert (validate_extensions L c must = Ok (Some v)) as -> by (apply extensions_iff; eauto). cbn [bind].
    assert (match issuer, key with Some i, _ => l_load L (t_spki (c_tbs i)) | None, Some k0 => Ok k0 | None, None => l_load L (t_spki (c_tbs c)) end = Ok k) as ->.
    { unfold signer_key in K. destruct issuer; [assumption|]. destruct key; [now subst | assumption]. }
    cbn [bind]. unfold verify_cert_signature, ensure_verify. rewrite Vk. cbn [guard bind]. rewrite Vk. cbn [guard bind]. rewrite Ta, S1. cbn [bind].
    rewrite Q. cbn [bind]. rewrite G. cbn [bind]. rewrite Vq. cbn [guard bind]. now rewrite alt_data_eq.
Qed.
Theorem load_key_iff L l k : load_catalyst_key L l = Ok k <->
  exists e s, first_is l ALT_SPKI e /\ l_spkidec L (x_val e) = Some (s, []) /\ l_load L s = Ok k.
Proof.
  unfold load_catalyst_key. split.
  - destruct (get_extension l ALT_SPKI) as [e|] eqn:E; [|discriminate]. apply get_extension_some in E.
    destruct (l_spkidec L (x_val e)) as [[s [|]]|] eqn:D; [|discriminate|discriminate]. cbn. eauto.
  - intros (e & s & F & D & K). apply get_extension_some in F. now rewrite F, D.
Qed.

(** ** Signing *)

(** The certificate that is signed: three extensions are added at the end. *)
Definition signed_as (L : lib) (c : cert) (aa : alg) (sk : spki) (s : bytes) (crit : bool) (a : alg) (c' : cert) : Prop :=
  t_rest (c_tbs c') = t_rest (c_tbs c) /\ t_spki (c_tbs c') = t_spki (c_tbs c) /\ t_alg (c_tbs c') = Some a /\ c_alg c' = Some a /\
  t_exts (c_tbs c') = Some (exts_of (t_exts (c_tbs c)) ++
    [{| x_id := ALT_ALG; x_crit := crit; x_val := l_algenc L aa |};
     {| x_id := ALT_SPKI; x_crit := crit; x_val := l_spkienc L sk |};
     {| x_id := ALT_SIG; x_crit := crit; x_val := l_bitsenc L s |}]).
Theorem sign_iff L c pq trad pqh h pss crit bad c' : sign_cert_catalyst L c pq trad pqh h pss crit bad = Ok c' <->
  exists aa a sk s s', l_sigalg L pq pqh pss = Ok aa /\ l_sigalg L trad h pss = Ok a /\ l_spki L (l_pub L pq) = Ok sk /\
    l_sign L pq (covered L c') pqh false = Ok s /\ (if bad then l_spoil L s pq = Ok s' else s' = s) /\
    l_sign L trad (l_tbsenc L (c_tbs c')) h pss = Ok (c_sig c') /\ signed_as L c aa sk s' crit a c'.
Proof.
  assert (forall (l : list ext) x y z, x_id x = ALT_ALG -> x_id y = ALT_SPKI -> x_id z = ALT_SIG -> without ALT_SIG (l ++ [x; y; z]) = without ALT_SIG ((l ++ [x]) ++ [y])) as W.
  { intros l x y z Ex Ey Ez. rewrite !without_app. unfold without at 2 4 5. cbn [filter]. rewrite Ex, Ey, Ez.
    destruct (string_dec ALT_ALG ALT_SIG) as [N|_]; [discriminate N|]. destruct (string_dec ALT_SPKI ALT_SIG) as [N|_]; [discriminate N|].
    destruct (string_dec ALT_SIG ALT_SIG) as [_|N]; [|now contradiction N]. now rewrite <- app_assoc. }
  unfold sign_cert_catalyst, prepare_alt_alg, prepare_alt_spki, prepare_alt_sig, sign_cert. cbn [bind]. split.
  - intros H. bd H as aa, E1. bd H as a, E2. bd H as e2, E3. bd E3 as sk, E4. injection E3 as <-. bd H as s, E5. bd H as s', E6.
    bd H as a2, E7. assert (a2 = a) as -> by congruence. bd H as g, E8. injection H as <-. exists aa, a, sk, s, s'.
    repeat (split; [assumption|]). split; [|split; [|split]].
    + unfold alt_data, pre_tbs in E5. unfold covered, add_ext in *. cbn [c_tbs set_texts set_talg t_rest t_spki t_exts add_ext exts_of] in *. rewrite <- !app_assoc. cbn [app].
      rewrite W by reflexivity. rewrite filter_without in E5. exact E5.
    + destruct bad; [assumption | congruence].
    + exact E8.
    + unfold signed_as, add_ext. cbn [c_tbs c_alg set_texts set_talg t_rest t_spki t_alg t_exts add_ext exts_of]. rewrite <- !app_assoc. auto.
  - intros (aa & a & sk & s & s' & E1 & E2 & E4 & E5 & E6 & E8 & F1 & F2 & F3 & F4 & F5). rewrite E1. cbn [bind]. rewrite E2. cbn [bind]. rewrite E4. cbn [bind].
    assert (c_tbs c' = {| t_rest := t_rest (c_tbs c); t_alg := Some a; t_spki := t_spki (c_tbs c); t_exts := t_exts (c_tbs c') |}) as T.
    { destruct (c_tbs c'); cbn in *. congruence. }
    rewrite F5 in T. unfold alt_data, pre_tbs, add_ext. cbn [set_texts set_talg t_rest t_spki t_exts add_ext exts_of]. rewrite filter_without.
    assert (covered L c' = l_preenc L {| p_rest := t_rest (c_tbs c); p_spki := t_spki (c_tbs c);
      p_exts := without ALT_SIG ((exts_of (t_exts (c_tbs c)) ++ [{| x_id := ALT_ALG; x_crit := crit; x_val := l_algenc L aa |}]) ++
        [{| x_id := ALT_SPKI; x_crit := crit; x_val := l_spkienc L sk |}]) |}) as C.
    { unfold covered. rewrite T. cbn [t_rest t_spki t_exts exts_of]. now rewrite W. }
    rewrite <- C, E5. cbn [bind]. assert ((if bad then l_spoil L s pq else Ok s) = Ok s') as -> by (destruct bad; [assumption | now subst]).
    cbn [bind c_tbs set_texts set_talg t_rest t_spki t_alg t_exts add_ext exts_of]. unfold set_texts, set_talg. cbn [t_rest t_spki t_alg t_exts exts_of].
    rewrite <- !app_assoc. cbn [app]. rewrite <- T, E8. cbn [bind].
    rewrite <- F4. now destruct c'.
Qed.
Lemma signed_values L c aa sk s crit a c' : cat_laws L -> signed_as L c aa sk s crit a c' ->
  exists l, t_exts (c_tbs c') = Some l /\ has_values L l {| v_sig := s; v_spki := sk; v_alg := aa |}.
Proof.
  intros HL (_ & _ & _ & _ & E). eexists. split; [exact E|]. unfold has_values. cbn [v_spki v_alg v_sig].
  match goal with |- context [?l ++ [?x; ?y; ?z]] => change (l ++ [x; y; z]) with (l ++ ([x] ++ [y] ++ [z])); rewrite !app_assoc end.
  split; [|split].
  - eexists. exists []. split; [apply last_is_other; [apply last_is_app; reflexivity | discriminate] | apply (cl_spki _ HL)].
  - eexists. exists []. split; [apply last_is_other; [apply last_is_other; [apply last_is_app; reflexivity | discriminate] | discriminate] | apply (cl_alg _ HL)].
  - eexists. split; [apply last_is_app; reflexivity | apply (cl_bits _ HL)].
Qed.
Theorem round_trip L c pq trad pqh h pss crit c' issuer key must : cat_laws L ->
  sound_hash L pq pqh pss -> sound_alg L trad h pss pss -> l_verifies L (l_pub L pq) = true -> l_verifies L (l_pub L trad) = true ->
  sign_cert_catalyst L c pq trad pqh h pss crit false = Ok c' -> signer_key L c' issuer key (l_pub L trad) ->
  (forall a, l_sigalg L pq pqh pss = Ok a -> demanded L a must) ->
  verify_catalyst L c' issuer key must = Ok tt.
Proof.
  intros HL Hq Ht Vq Vt H K D. apply sign_iff in H. destruct H as (aa & a & sk & s & s' & E1 & E2 & E3 & E4 & -> & E5 & F).
  destruct (signed_values _ _ _ _ _ _ _ _ HL F) as (l & El & V). apply verify_iff. exists l. eexists. exists (l_pub L trad). split; [exact El|]. split; [exact V|].
  split; [now apply D|]. split; [exact K|]. split; [assumption|]. split.
  - exists a. split; [apply F | eauto].
  - destruct (Hq _ _ _ E1 E4) as (x & G & S2). exists (l_pub L pq), x. cbn [v_spki v_alg v_sig]. split; [now apply (cl_load _ HL)|]. auto.
Qed.
Lemma values_fun L l v w : has_values L l v -> has_values L l w -> v = w.
Proof.
  intros ((ek & rk & Lk & Dk) & (ea & ra & La & Da) & (es & Ls & Ds)) ((ek' & rk' & Lk' & Dk') & (ea' & ra' & La' & Da') & (es' & Ls' & Ds')).
  assert (forall o e e', last_is l o e -> last_is l o e' -> x_val e = x_val e') as U.
  { intros o e e' A B. assert (Some (x_val e) = Some (x_val e')); [|congruence].
    transitivity (last_value l o); [symmetry|]; apply last_value_some; eauto. }
  rewrite (U _ _ _ Lk Lk') in Dk. rewrite (U _ _ _ La La') in Da. rewrite (U _ _ _ Ls Ls') in Ds. destruct v, w; cbn in *. congruence.
Qed.
Theorem bad_refused L c pq trad pqh h pss crit c' issuer key must : cat_laws L ->
  spoils L pq pqh pss -> sign_cert_catalyst L c pq trad pqh h pss crit true = Ok c' -> verify_catalyst L c' issuer key must <> Ok tt.
Proof.
  intros HL Hs H V. apply sign_iff in H. destruct H as (aa & a & sk & s & s' & E1 & E2 & E3 & E4 & Sp & E5 & F).
  destruct (signed_values _ _ _ _ _ _ _ _ HL F) as (l & El & W). apply verify_iff in V.
  destruct V as (l' & v & k & El' & Hv & _ & _ & _ & _ & q & x & Q & _ & G & S2). assert (l' = l) as -> by congruence.
  assert (v = {| v_sig := s'; v_spki := sk; v_alg := aa |}) as -> by (eapply values_fun; eauto). cbn [v_spki v_alg v_sig] in *.
  destruct (Hs _ _ _ _ E1 E4 Sp) as (x' & G' & S'). rewrite (cl_load _ HL _ _ E3) in Q. congruence.
Qed.
(** What is covered determines everything but the algorithm of the issuer and the alternative signature. *)
Theorem covers L c c' : (forall p p', l_preenc L p = l_preenc L p' -> p = p') ->
  (covered L c = covered L c' <->
   t_rest (c_tbs c) = t_rest (c_tbs c') /\ t_spki (c_tbs c) = t_spki (c_tbs c') /\
   without ALT_SIG (exts_of (t_exts (c_tbs c))) = without ALT_SIG (exts_of (t_exts (c_tbs c')))).
Proof.
  intros I. unfold covered. split; [intros H; apply I in H; injection H as -> -> ->; auto | intros (-> & -> & ->); reflexivity].
Qed.

(** Values that cannot be decoded. *)
Lemma extensions_malformed L c must l ek ea es : t_exts (c_tbs c) = Some l ->
  last_is l ALT_SPKI ek -> last_is l ALT_ALG ea -> last_is l ALT_SIG es ->
  (l_spkidec L (x_val ek) = None \/ l_algdec L (x_val ea) = None \/ l_bitsdec L (x_val es) = None
   \/ exists s z r, l_bitsdec L (x_val es) = Some (s, z :: r)) -> validate_extensions L c must = Err EBadAsn1Data.
Proof.
  intros E K A S D. unfold validate_extensions. rewrite E.
  rewrite (proj2 (last_value_some l ALT_SPKI (x_val ek)) (ex_intro _ ek (conj K eq_refl))).
  rewrite (proj2 (last_value_some l ALT_ALG (x_val ea)) (ex_intro _ ea (conj A eq_refl))).
  rewrite (proj2 (last_value_some l ALT_SIG (x_val es)) (ex_intro _ es (conj S eq_refl))). unfold decoded.
  destruct (l_spkidec L (x_val ek)) as [[k rk]|]; [|reflexivity]. cbn [bind]. destruct (l_algdec L (x_val ea)) as [[a ra]|]; [|reflexivity]. cbn [bind].
  destruct (l_bitsdec L (x_val es)) as [[s rs]|]; [|reflexivity]. cbn [bind].
  destruct D as [D|[D|[D|(s' & z & r & D)]]]; [discriminate D|discriminate D|discriminate D|]. injection D as _ ->. reflexivity.
Qed.
(** The keyword for the algorithm: a key takes precedence over an identifier. *)
Lemma alt_alg_iff L a crit h pss k e : prepare_alt_alg L a crit h pss k = Ok e
  <-> exists x, (match k with Some k => l_sigalg L k h pss = Ok x | None => a = Some x end) /\ e = {| x_id := ALT_ALG; x_crit := crit; x_val := l_algenc L x |}.
Proof.
  unfold prepare_alt_alg. split.
  - intros H. apply bind_inv in H. destruct H as (x & A & H). injection H as <-. exists x. split; [|reflexivity]. destruct k; [exact A|]. destruct a; [congruence|discriminate A].
  - intros (x & A & ->). destruct k; [rewrite A; reflexivity|]. subst a. reflexivity.
Qed.
