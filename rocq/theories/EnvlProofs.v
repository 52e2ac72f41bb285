(** Proofs about opening an EnvelopedData. *)
From Coq Require Import String Lia.
From Verif Require Import Prelude HdrModel EnvlModel EnvlSpec.
From Verif Require Import ProtMac ChamIssue ChamProofs.
Open Scope string_scope.
Open Scope Z_scope.
Open Scope list_scope.

Lemma need_inv A (o : option A) x : need o = Ok x <-> o = Some x.
Proof. destruct o; cbn; split; congruence. Qed.
Lemma some_inv A (o : option A) e x : match o with Some a => Ok a | None => Err e end = Ok x <-> o = Some x.
Proof. destruct o; split; congruence. Qed.
Lemma decode_inv A (d : option (A * bytes)) e x : decode d e = Ok x <-> d = Some (x, []).
Proof. unfold decode. destruct d as [[a [|b l]]|]; split; intros H; try discriminate H; injection H as ->; reflexivity. Qed.
Lemma guard_iff b e u : guard b e = Ok u <-> b = true.
Proof. destruct u, b; cbn; split; congruence. Qed.

Ltac step1 :=
  match goal with
  | H : Err _ = Ok _ |- _ => discriminate H
  | H : bind _ _ = Ok _ |- _ => apply bind_inv in H; let x := fresh "x" in let E := fresh "E" in destruct H as (x & E & H)
  | H : guard _ _ = Ok _ |- _ => apply guard_iff in H
  | H : need _ = Ok _ |- _ => apply need_inv in H
  | H : decode _ _ = Ok _ |- _ => apply decode_inv in H
  | H : match ?o with Some a => Ok a | None => Err _ end = Ok _ |- _ => apply some_inv in H
  | H : _ && _ = true |- _ => apply andb_prop in H; destruct H
  | H : String.eqb _ _ = true |- _ => apply String.eqb_eq in H
  | H : bytes_eqb _ _ = true |- _ => apply bytes_eqb_iff in H
  | H : Nat.eqb _ _ = true |- _ => apply Nat.eqb_eq in H
  | H : (_ =? _) = true |- _ => apply Z.eqb_eq in H
  | x : (_ * _)%type |- _ => destruct x
  | x : unit |- _ => destruct x
  end.
Ltac binv := repeat step1.

Tactic Notation "bd" hyp(H) "as" simple_intropattern(p) "," ident(E) :=
  apply bind_inv in H; destruct H as (p & E & H);
  first [apply guard_iff in E | apply need_inv in E | apply decode_inv in E | apply some_inv in E | idtac].

(** Deciders against the small tables of the specification. *)
Lemma wrap_length_iff o n : wrap_length o = Some n <-> wrap_size o n.
Proof.
  unfold wrap_length, WRAP128, WRAP192, WRAP256. split.
  - destruct (String.eqb o _) eqn:E; [apply String.eqb_eq in E; subst; intros [= <-]; constructor|].
    clear E. destruct (String.eqb o _) eqn:E; [apply String.eqb_eq in E; subst; intros [= <-]; constructor|].
    clear E. destruct (String.eqb o _) eqn:E; [apply String.eqb_eq in E; subst; intros [= <-]; constructor|discriminate].
  - destruct 1; reflexivity.
Qed.
Lemma cbc_iff o n :
  (if String.eqb o CBC128 then Ok 16 else if String.eqb o CBC192 then Ok 24 else if String.eqb o CBC256 then Ok 32 else Err EBadAlg) = Ok n
  <-> cbc_size o n.
Proof.
  unfold CBC128, CBC192, CBC256. split.
  - destruct (String.eqb o _) eqn:E; [apply String.eqb_eq in E; subst; intros [= <-]; constructor|].
    clear E. destruct (String.eqb o _) eqn:E; [apply String.eqb_eq in E; subst; intros [= <-]; constructor|].
    clear E. destruct (String.eqb o _) eqn:E; [apply String.eqb_eq in E; subst; intros [= <-]; constructor|discriminate].
  - destruct 1; reflexivity.
Qed.
Lemma find_in B o (l : list (oid * B)) x : find_oid o l = Some x -> In (o, x) l.
Proof.
  induction l as [|[k v] l IH]; cbn; [discriminate|]. destruct (String.eqb k o) eqn:E.
  - intros [= <-]. apply String.eqb_eq in E. subst. now left.
  - intros H. right. now apply IH.
Qed.
Lemma mqv_iff o h : find_oid o mqv_table = Some h <-> mqv_scheme o h.
Proof.
  split.
  - intros H. apply find_in in H. cbn [mqv_table In] in H.
    repeat (destruct H as [H|H]; [injection H as <- <-; constructor|]). destruct H.
  - destruct 1; reflexivity.
Qed.
Lemma dh_iff o h cof :
  dh_scheme o h cof <-> (oid_in o [X25519; X448; ESDH] = true /\ h = "sha256" /\ cof = false)
                        \/ (oid_in o [X25519; X448; ESDH] = false /\ find_oid o dh_table = Some (h, cof)).
Proof.
  split.
  - destruct 1; [right|right|right|right|right|right|right|right|left|left|left]; repeat split; reflexivity.
  - intros [(H & -> & ->) | (_ & H)].
    + unfold oid_in, X25519, X448, ESDH in H. cbn [existsb] in H.
      repeat (apply orb_prop in H as [H|H]); try discriminate; apply String.eqb_eq in H; subst; constructor.
    + apply find_in in H. cbn [dh_table In] in H.
      repeat (destruct H as [H|H]; [injection H as <- <- <-; constructor|]). destruct H.
Qed.

Theorem content_exact L e cek raw d : open_content L e cek raw = Ok d <-> content_opens L e cek raw d.
Proof.
  unfold open_content, content_opens. split.
  - intros H. binv. split; [assumption|]. apply cbc_iff in E0. subst. split; [assumption|].
    destruct (l_ivdec L x1) as [[iv [|? ?]]|] eqn:Ei; try discriminate. injection E2 as <-.
    exists x1, iv, x3. repeat split; assumption.
  - intros (Ht & Hs & p & iv & c & Hp & Hi & Hl & Hd & Hc).
    rewrite Ht, String.eqb_refl. cbn [guard bind]. apply cbc_iff in Hs. rewrite Hs. cbn [bind].
    rewrite Hp. cbn [bind]. rewrite Hi. cbn [bind]. rewrite Hd. cbn [bind].
    rewrite Z.eqb_refl, Hl. cbn [guard bind Nat.eqb]. exact Hc.
Qed.

Lemma pbkdf2_iff L salt iter len prf pw k :
  pbkdf2 L {| k_salt := Some salt; k_iter := iter; k_len := Some len; k_prf := prf |} pw = Ok k
  <-> pbkdf2_gives L salt iter len prf pw k.
Proof.
  unfold pbkdf2, pbkdf2_gives. cbn [k_salt k_iter k_len k_prf bind]. split.
  - intros H. binv. destruct x as [h|]; [|discriminate]. exists h. now split.
  - intros (h & E & H). rewrite E. cbn [bind]. exact H.
Qed.

Theorem pwri_exact L r s pw cek :
  (let! (p, key) := validate_pwri_info L r s in let! k := pbkdf2 L p pw in l_unwrap L k key) = Ok cek
  <-> pwri_yields L r s pw cek.
Proof.
  unfold validate_pwri_info, pwri_yields. split.
  - intros H. apply bind_inv in H. destruct H as ([p key] & E & H). apply bind_inv in H. destruct H as (k & Ek & H).
    bd E as v, Ev. bd E as [], E3. apply Z.eqb_eq in E3. bd E as a, Ea. bd E as [], Eo. apply String.eqb_eq in Eo.
    bd E as w, Ew. bd E as n, En. bd E as key', Ekey. bd E as par, Epar. bd E as p', Ep. bd E as [], Ewp. bd E as salt, Es.
    bd E as [], Ens. bd E as len, El. bd E as [], Elen. apply Z.eqb_eq in Elen. injection E as -> ->. subst v n.
    apply wrap_length_iff in En. apply negb_true_iff in Ens. destruct p as [ps iter pl prf]. cbn [k_salt k_len] in Es, El.
    subst ps pl. apply pbkdf2_iff in Ek. destruct (g_par w) eqn:Egw; [discriminate|].
    exists a, par, salt, iter, len, prf, w, key, k. repeat split; try assumption.
    intros ->. assert (bytes_eqb s s = true) by now apply bytes_eqb_iff. congruence.
  - intros (a & par & salt & iter & len & prf & w & key & k & Hv & Ha & Ho & Hp & Hd & Hn & Hw & Hwp & Hs & Hk & Hg & Hu).
    rewrite Hv. cbn [need bind Z.eqb Pos.eqb guard]. rewrite Ha. cbn [need bind]. rewrite Ho.
    cbn [guard bind PBKDF2]. change (String.eqb _ PBKDF2) with true. cbn [guard bind]. rewrite Hw. cbn [need bind].
    apply wrap_length_iff in Hs. rewrite Hs. cbn [need bind]. rewrite Hk. cbn [need bind]. rewrite Hp. cbn [bind].
    rewrite Hd. cbn [decode bind]. rewrite Hwp. cbn [guard bind k_salt k_len].
    destruct (bytes_eqb salt s) eqn:E; [apply bytes_eqb_iff in E; contradiction|]. cbn [negb guard bind].
    rewrite Z.eqb_refl. cbn [guard bind]. apply pbkdf2_iff in Hg. rewrite Hg. cbn [bind]. exact Hu.
Qed.

Lemma salt_exact L m salt s :
  match salt, m with
  | Some s, _ => Ok s
  | None, Some m => let! a := need (n_prot m) in l_salt L a
  | None, None => Err EValueError
  end = Ok s <-> protection_salt L m salt s.
Proof.
  unfold protection_salt. destruct salt as [x|]; [split; congruence|]. destruct m as [m|].
  - split.
    + intros H. binv. eauto.
    + intros (m' & a & [= <-] & Ha & H). rewrite Ha. exact H.
  - split; [discriminate|]. intros (m' & a & [=] & _).
Qed.

Theorem extract_pwri_exact L m pw r salt cek :
  extract_pwri L m pw r salt = Ok cek
  <-> exists r' p s, r = Pwri r' /\ pw = Some p /\ protection_salt L m salt s /\ pwri_yields L r' s p cek.
Proof.
  unfold extract_pwri. split.
  - destruct r as [| | |r|]; try discriminate. intros H. apply bind_inv in H. destruct H as (p & Ep & H).
    apply need_inv in Ep. apply bind_inv in H. destruct H as (s & Es & H). apply salt_exact in Es. apply pwri_exact in H.
    exists r, p, s. auto.
  - intros (r' & p & s & -> & -> & Hs & H). cbn [need bind]. apply salt_exact in Hs. rewrite Hs. cbn [bind].
    now apply pwri_exact.
Qed.

(** ** Identifiers *)
Lemma isn_exact i n c : check_isn i n c = Ok tt <-> i = c_issuer c /\ n = c_serial c.
Proof.
  unfold check_isn. split.
  - intros H. binv. now split.
  - intros [-> ->]. assert (E : bytes_eqb (c_issuer c) (c_issuer c) = true) by now apply bytes_eqb_iff.
    rewrite E, Z.eqb_refl. reflexivity.
Qed.
Lemma rid_exact r c : check_rid r c = Ok tt <-> names r c.
Proof.
  unfold check_rid, names. destruct (c_ski c) as [s|], r as [x|i n]; split; try discriminate.
  - intros H. binv. now subst.
  - intros [= ->]. apply guard_iff. now apply bytes_eqb_iff.
  - intros H. apply isn_exact in H as [-> ->]. reflexivity.
  - intros [= -> ->]. now apply isn_exact.
Qed.
Lemma orig_exact o c : check_originator o c = Ok tt <-> originates o c.
Proof.
  unfold check_originator, originates. destruct (c_ski c) as [s|], o as [x|i n|k]; split; try discriminate.
  - intros H. binv. now subst.
  - intros [= ->]. apply guard_iff. now apply bytes_eqb_iff.
  - intros H. apply isn_exact in H as [-> ->]. reflexivity.
  - intros [= -> ->]. now apply isn_exact.
Qed.
Lemma recip_key_exact x e c pop b :
  check_recip_key {| re_rid := x; re_key := e |} c pop = Ok b
  <-> b = e /\ (pop = true \/ exists c', c = Some c' /\ names x c').
Proof.
  unfold check_recip_key. cbn [re_rid re_key]. destruct pop.
  - split; [intros [= ->]; auto | intros [-> _]; reflexivity].
  - destruct c as [c|].
    + split.
      * intros H. binv. injection H as <-. split; [reflexivity|]. right. exists c. split; [reflexivity|].
        unfold names. destruct (c_ski c) as [s|], x as [y|i n]; try discriminate; binv.
        -- now subst.
        -- apply isn_exact in E as [-> ->]. reflexivity.
      * intros [-> [[=]|(c' & [= <-] & H)]]. unfold names in H. subst x. destruct (c_ski c) as [s|].
        -- assert (E : bytes_eqb s s = true) by now apply bytes_eqb_iff. rewrite E. reflexivity.
        -- assert (E : check_isn (c_issuer c) (c_serial c) c = Ok tt) by now apply isn_exact. rewrite E. reflexivity.
    + split; [discriminate|]. intros [_ [[=]|(c' & [=] & _)]].
Qed.

(** ** Key transport *)
Lemma oaep_exact L o p :
  oaep_padding L o = Ok p
  <-> exists h m g, l_hash L (o_hash o) = Ok (Some h) /\ l_oiddec L (o_mgf o) = Some (m, []) /\ l_hash L m = Ok (Some g)
                    /\ o_src o = false /\ p = OaepPad h g.
Proof.
  unfold oaep_padding. split.
  - intros H. binv. destruct x, x2; try discriminate. injection E0 as ->. injection E3 as ->. injection H as <-.
    exists x0, x1, x3. repeat split; try assumption. now destruct (o_src o).
  - intros (h & m & g & Eh & Em & Eg & Es & ->). rewrite Eh. cbn [bind]. rewrite Em. cbn [decode bind]. rewrite Eg.
    cbn [bind]. rewrite Es. reflexivity.
Qed.
Lemma bytes_eqb_refl b : bytes_eqb b b = true.
Proof. now apply bytes_eqb_iff. Qed.

Lemma transport_exact L k a e null cek :
  oid_in (g_oid a) [RSA; OAEP] = true ->
  (key_transport L k a e null = Ok cek <-> exists p, ktri_padding L a p /\ l_unrsa L k p e = Ok cek).
Proof.
  intros Hin. unfold key_transport, ktri_padding. split.
  - intros H. apply bind_inv in H. destruct H as (p & E & H). exists p. split; [|assumption].
    destruct (String.eqb (g_oid a) RSA) eqn:Er.
    + left. apply String.eqb_eq in Er. binv. injection E as <-. repeat split; [assumption|].
      destruct (g_par a) as [d|]; [|now left]. right. apply bytes_eqb_iff in E0. now subst.
    + right. unfold oid_in in Hin. cbn [existsb] in Hin. rewrite Er in Hin. cbn [orb] in Hin. rewrite orb_false_r in Hin.
      apply String.eqb_eq in Hin. split; [assumption|]. binv. apply oaep_exact in E.
      destruct E as (h & m & g & ?). exists x, x0, h, m, g. tauto.
  - intros (p & [(Ho & Hp & ->) | (Ho & par & o & h & m & g & Hp & Hd & R)] & H).
    + rewrite Ho. change (String.eqb _ RSA) with true. destruct Hp as [-> | ->]; cbn [guard bind]; exact H.
    + rewrite Ho. change (String.eqb _ RSA) with false. rewrite Hp. cbn [bind]. rewrite Hd. cbn [decode bind].
      assert (E : oaep_padding L o = Ok p) by (apply oaep_exact; eauto). rewrite E. cbn [bind]. exact H.
Qed.

Theorem ktri_exact L r c k pop null cek :
  extract_ktri L r c k pop null = Ok cek <-> ktri_yields L r c pop k cek.
Proof.
  unfold extract_ktri, validate_ktri_info, ktri_yields. split.
  - intros H. apply bind_inv in H. destruct H as ([] & G & H). apply bind_inv in H. destruct H as ([e a] & E & H).
    apply bind_inv in H. destruct H as ([] & K & H). apply guard_iff in K. binv.
    injection E as <- <-. apply transport_exact in H; [|assumption]. destruct H as (p & Hp & Hu).
    repeat split; [assumption| | |].
    + destruct pop; [now left|]. destruct c as [c|]; [|discriminate]. binv. right. exists c, x. repeat split; [assumption|].
      now apply rid_exact.
    + destruct (s_kind k); congruence.
    + eexists _, _, _. eauto.
  - intros (Hv & Hr & Hk & a & p & e & Ha & He & Hp & Hu).
    assert (G : guard (pop || match c with Some _ => true | None => false end) EValueError = Ok tt).
    { destruct Hr as [-> |(c' & i & -> & _)]; [reflexivity|]. now rewrite orb_true_r. }
    rewrite G. cbn [bind]. rewrite Hv. cbn [Z.eqb Pos.eqb guard bind].
    assert (R : (if pop then Ok tt else match c with Some c => let! i := need (kt_rid r) in check_rid i c | None => Err EValueError end) = Ok tt).
    { destruct Hr as [-> |(c' & i & -> & Hi & Hn)]; [reflexivity|]. destruct pop; [reflexivity|]. rewrite Hi. cbn [need bind].
      now apply rid_exact. }
    rewrite R. cbn [bind]. rewrite Ha. cbn [need bind].
    assert (O : oid_in (g_oid a) [RSA; OAEP] = true) by (destruct Hp as [(-> & _) | (-> & _)]; reflexivity).
    rewrite O. cbn [guard bind]. rewrite He. cbn [need bind]. rewrite Hk. cbn [guard bind].
    apply transport_exact; eauto.
Qed.

(** ** Key agreement *)
Lemma derive_exact L z w h ukm kek : derive_ec L z w h ukm = Ok kek <-> ec_kek L h z w ukm kek.
Proof.
  unfold derive_ec, ec_kek. split.
  - destruct (wrap_length w) as [n|] eqn:E; [|discriminate]. apply wrap_length_iff in E. eauto.
  - intros (n & Hn & H). apply wrap_length_iff in Hn. rewrite Hn. exact H.
Qed.
Lemma static_exact L k c h w ukm cof kek :
  static_dh_cert L k c h w ukm cof = Ok kek
  <-> exists p z, l_load L (c_spki c) = Ok p /\ ecdh_kind (p_kind p) = true /\ l_ecdh L k p cof = Ok z /\ ec_kek L h z w ukm kek.
Proof.
  unfold static_dh_cert, static_dh. split.
  - destruct (wrap_length w) as [n|] eqn:E; [|discriminate]. intros H. binv. apply derive_exact in H. eauto 6.
  - intros (p & z & Hp & Hk & Hz & H). pose proof H as (n & Hn & _). apply wrap_length_iff in Hn. rewrite Hn, Hp.
    cbn [bind]. rewrite Hk. cbn [guard bind]. rewrite Hz. cbn [bind]. now apply derive_exact.
Qed.
Lemma is_ec_iff k : is_ec k = true <-> k = KEc.
Proof. destruct k; cbn; split; congruence. Qed.

Lemma mqv_exact L u k h w c kek :
  process_mqv L u k h w c = Ok kek
  <-> exists p d m e, l_load L (c_spki c) = Ok p /\ p_kind p = KEc /\ u = Some d /\ l_mqvdec L d = Some (m, [])
                      /\ m_alg m = EC_PUBLIC /\ l_load L (m_key m) = Ok e /\ p_kind e = KEc
                      /\ ec_kek L h (l_mqv_recv L k p e) w (m_added m) kek.
Proof.
  unfold process_mqv. split.
  - intros H. bd H as d, Ed. bd H as m, Em. bd H as [], Ea. apply String.eqb_eq in Ea. bd H as e, Ee. bd H as [], Ke.
    bd H as p, Ep. bd H as [], Kp. apply derive_exact in H. apply is_ec_iff in Ke, Kp. exists p, d, m, e. repeat split; assumption.
  - intros (p & d & m & e & Hp & Kp & -> & Hd & Hm & He & Ke & H). cbn [bind]. rewrite Hd. cbn [decode bind].
    rewrite Hm, String.eqb_refl. cbn [guard bind]. rewrite He. cbn [bind]. rewrite Ke. cbn [is_ec guard bind]. rewrite Hp.
    cbn [bind]. rewrite Kp. cbn [is_ec guard bind]. now apply derive_exact.
Qed.

Lemma dh_not_mqv o h cof h' : dh_scheme o h cof -> mqv_scheme o h' -> False.
Proof. intros H H'. inversion H'; subst; inversion H. Qed.

Theorem agreement_exact L k c a ukm kek : process_kari L a k c ukm = Ok kek <-> agreed L k c a ukm kek.
Proof.
  unfold process_kari, agreed. split.
  - intros H. bd H as x, Ex. bd H as w0, E0. destruct (l_algdec L x) as [[w [|? ?]]|] eqn:Ew; try discriminate. injection E0 as <-.
    destruct (find_oid (g_oid a) mqv_table) as [h|] eqn:M.
    + bd H as [], E0. apply mqv_iff in M. apply is_ec_iff in E0. apply mqv_exact in H.
      destruct H as (p & d & m & e & Hp & Kp & -> & Hd & Hm & He & Ke & H).
      exists x, w, p. repeat split; try assumption. right. exists h, d, m, e. repeat split; assumption.
    + destruct (oid_in (g_oid a) [X25519; X448; ESDH]) eqn:X.
      * apply static_exact in H. destruct H as (p & z & Hp & Hk & Hz & H). exists x, w, p. repeat split; try assumption.
        left. exists "sha256", false, z. repeat split; try assumption. apply dh_iff. now left.
      * destruct (find_oid (g_oid a) dh_table) as [[h cof]|] eqn:D; [|discriminate].
        apply static_exact in H. destruct H as (p & z & Hp & Hk & Hz & H). exists x, w, p. repeat split; try assumption.
        left. exists h, cof, z. repeat split; try assumption. apply dh_iff. now right.
  - intros (par & w & p & Hp & Hw & Hl & [(h & cof & z & S1 & K & Hz & H) | (h & u & m & e & S1 & K & Kp & -> & Hm & Ha & He & Ke & H)]);
      rewrite Hp; cbn [bind]; rewrite Hw; cbn [bind].
    + destruct (find_oid (g_oid a) mqv_table) as [h'|] eqn:M; [apply mqv_iff in M; now destruct (dh_not_mqv _ _ _ _ S1 M)|].
      apply dh_iff in S1. destruct S1 as [(X & -> & ->) | (X & D)]; rewrite X; [|rewrite D]; apply static_exact; exists p, z; auto.
    + apply mqv_iff in S1. rewrite S1, K. cbn [is_ec guard bind]. apply mqv_exact. exists p, u, m, e. repeat split; assumption.
Qed.

Lemma agreed_known L k c a ukm kek : agreed L k c a ukm kek ->
  is_ka (g_oid a) = true /\ match ukm with None => guard (negb (is_mqv (g_oid a))) EValueError | Some _ => Ok tt end = Ok tt.
Proof.
  intros (par & w & p & _ & _ & _ & [(h & cof & z & S1 & _) | (h & u & m & e & S1 & _ & _ & -> & _)]).
  - destruct S1, ukm; split; reflexivity.
  - destruct S1; split; reflexivity.
Qed.

Theorem kari_exact L r c pop k peer cek :
  (let! (e, a, u) := validate_kari_info r c pop in key_agreement L k peer a e u) = Ok cek
  <-> kari_yields L r c pop k peer cek.
Proof.
  unfold validate_kari_info, kari_yields, key_agreement. split.
  - intros H. apply bind_inv in H. destruct H as ([[e a] u] & E & H). apply bind_inv in H. destruct H as (kek & Ek & H).
    bd E as [], E0. bd E as v, Ev. bd E as [], E3. apply Z.eqb_eq in E3. bd E as o, Eo. bd E as [], Eor. bd E as a', Ea.
    bd E as [], Eka. bd E as [], Eu. destruct (ka_keys r) as [|[x e0] [|? ?]] eqn:Hk; try discriminate. bd E as b, Eb.
    injection E as -> -> <-. apply recip_key_exact in Eb. destruct Eb as [-> Hr]. apply agreement_exact in Ek. subst v.
    exists o, a, x, e0, kek. repeat split; try assumption.
    destruct pop; [now left|]. right. destruct c as [c|]; [|discriminate]. exists c. split; [reflexivity|].
    split; [now apply orig_exact|]. destruct Hr as [[=]|(c' & [= <-] & Hr)]. exact Hr.
  - intros (o & a & x & e & kek & Hv & Ho & Ha & Hk & Hr & Hg & Hu).
    assert (G : guard (pop || match c with Some _ => true | None => false end) EValueError = Ok tt).
    { destruct Hr as [-> |(c' & -> & _)]; [reflexivity|]. now rewrite orb_true_r. }
    rewrite G. cbn [bind]. rewrite Hv. cbn [need bind Z.eqb Pos.eqb guard]. rewrite Ho. cbn [need bind].
    assert (O : (if pop then Ok tt else match c with Some c => check_originator o c | None => Err EValueError end) = Ok tt).
    { destruct Hr as [-> |(c' & -> & Hi & _)]; [reflexivity|]. destruct pop; [reflexivity|]. now apply orig_exact. }
    rewrite O. cbn [bind]. rewrite Ha. cbn [need bind]. destruct (agreed_known _ _ _ _ _ _ Hg) as [K U]. rewrite K, U.
    cbn [guard bind]. rewrite Hk.
    assert (R : check_recip_key {| re_rid := x; re_key := e |} c pop = Ok e).
    { apply recip_key_exact. split; [reflexivity|]. destruct Hr as [? |(c' & -> & _ & ?)]; eauto. }
    rewrite R. cbn [bind]. apply agreement_exact in Hg. rewrite Hg. exact Hu.
Qed.

(** ** Key encapsulation *)
Lemma hkdf_table_iff o h : hkdf_hash o = Some h /\ known_hash h = true <-> hkdf_of o h.
Proof.
  split.
  - intros [H K]. unfold hkdf_hash, key_of_value in H. cbn [hkdf_table map fst snd find] in H.
    repeat match type of H with
    | context [String.eqb ?a o] => destruct (String.eqb a o) eqn:?; [
        let t := constr:(o) in
        match goal with E : String.eqb a o = true |- _ => apply String.eqb_eq in E; subst o end;
        cbn in H; injection H as <-; first [constructor | discriminate K]|]
    end. discriminate.
  - destruct 1; split; reflexivity.
Qed.
Lemma hkdf_or o : hkdf_hash o = None \/ exists h, hkdf_hash o = Some h.
Proof. destruct (hkdf_hash o); eauto. Qed.

Theorem kdf_exact L f ss info n kek : compute_kdf L f None ss n info = Ok kek <-> kdf_gives L f ss info n kek.
Proof.
  unfold compute_kdf, kdf_gives. split.
  - destruct (hkdf_hash (g_oid f)) as [h|] eqn:Hh.
    + unfold hkdf. destruct (known_hash h) eqn:K; [|discriminate]. intros [= <-]. left. exists h. split; [|reflexivity].
      apply hkdf_table_iff. now split.
    + destruct (oid_in (g_oid f) [KDF2; KDF3]) eqn:I.
      * intros H. binv. destruct (l_algdec L x) as [[s rest]|] eqn:D; [|discriminate]. binv.
        destruct x0 as [h|]; [|discriminate]. right. exists (String.eqb (g_oid f) KDF2), x, s, rest, h.
        repeat split; try assumption. unfold oid_in in I. cbn [existsb] in I. destruct (String.eqb (g_oid f) KDF2) eqn:E2.
        -- now apply String.eqb_eq.
        -- cbn [orb] in I. rewrite orb_false_r in I. now apply String.eqb_eq.
      * destruct (String.eqb (g_oid f) PBKDF2); [|discriminate]. destruct (g_par f); [|discriminate].
        destruct (l_algdec L _); discriminate.
  - intros [(h & Hh & ->) | (v2 & par & s & rest & h & Ho & Hp & Hd & Hh & H)].
    + apply hkdf_table_iff in Hh. destruct Hh as [-> K]. unfold hkdf. now rewrite K.
    + rewrite Ho.
      assert (N : hkdf_hash (if v2 then KDF2 else KDF3) = None) by (destruct v2; reflexivity). rewrite N.
      assert (I : oid_in (if v2 then KDF2 else KDF3) [KDF2; KDF3] = true) by (destruct v2; reflexivity). rewrite I, Hp.
      cbn [bind]. rewrite Hd, Hh. cbn [bind].
      destruct v2; exact H.
Qed.
Lemma kdf_known L f ss info n kek : kdf_gives L f ss info n kek -> is_kdf (g_oid f) = true.
Proof.
  intros [(h & Hh & _) | (v2 & par & s & rest & h & -> & _)].
  - destruct Hh; reflexivity.
  - destruct v2; reflexivity.
Qed.

Theorem kemri_exact L r c k pop sun cek :
  process_kemri L r c (Some k) pop sun = Ok cek <-> kemri_yields L r c pop sun k cek.
Proof.
  unfold process_kemri, validate_kemri_info, check_kem, check_kek, kemri_yields. split.
  - intros H. apply bind_inv in H. destruct H as ([] & G & H). apply bind_inv in H.
    destruct H as ([[[[e ct] f] w] n] & E & H). apply bind_inv in H. destruct H as ([] & K & H). apply guard_iff in K.
    apply bind_inv in H. destruct H as (ss & Es & H). apply bind_inv in H. destruct H as (kek & Ek & H).
    bd E as [], E0. bd E as i, Ei. bd E as [], Er. bd E as ct', Ect. bd Ect as o, Eo. bd Ect as [], Eko. bd Ect as ct'', Ec.
    bd Ect as [], E13. injection Ect as ->. bd E as f', Ef. bd E as [], Eif. bd E as [w' n'], Ekk. bd Ekk as w'', Ew. bd Ekk as n'', En.
    bd Ekk as z, Ez. bd Ekk as [], E10. apply Z.eqb_eq in E10. injection Ekk as -> ->. bd E as e', Ee.
    injection E as -> -> -> -> ->. subst z. apply kdf_exact in Ek. apply wrap_length_iff in Ez.
    exists i, o, ct, f, n, w, e, ss, kek. repeat split; try assumption.
    + destruct (km_version r) as [v|]; [|discriminate]. apply Z.eqb_eq in E0. now subst.
    + destruct pop; [now left|]. destruct c as [c|]; [|discriminate]. right. exists c. split; [reflexivity|]. now apply rid_exact.
    + unfold kem_oid in E13. destruct (s_kind k) as [| | | |y|] eqn:Sk; try discriminate.
      * exists KEM_RSA. split; [now right|]. destruct sun; [now left|]. right. cbn [bind] in E13. now apply guard_iff, String.eqb_eq in E13.
      * exists y. split; [now left|]. destruct sun; [now left|]. right. cbn [bind] in E13. now apply guard_iff, String.eqb_eq in E13.
  - intros (i & o & ct & f & n & w & e & ss & kek & Hv & Hi & Hr & Hk & Hkn & (y & Hy & Hs) & Hct & Hf & Hn & Hw & Hz & He & Hd & Hg & Hu).
    assert (G : guard (pop || match c with Some _ => true | None => false end) EValueError = Ok tt).
    { destruct Hr as [-> |(c' & -> & _)]; [reflexivity|]. now rewrite orb_true_r. }
    rewrite G. cbn [bind]. rewrite Hv. cbn [Z.eqb guard bind]. rewrite Hi. cbn [need bind].
    assert (R : (if pop then Ok tt else match c with Some c => check_rid i c | None => Err EValueError end) = Ok tt).
    { destruct Hr as [-> |(c' & -> & Hc)]; [reflexivity|]. destruct pop; [reflexivity|]. now apply rid_exact. }
    rewrite R. cbn [bind]. rewrite Hk. cbn [need bind]. rewrite Hkn. cbn [guard bind]. rewrite Hct. cbn [need bind].
    assert (Q : (if sun then Ok tt else let! x := kem_oid k in guard (String.eqb x o) EValueError) = Ok tt).
    { destruct sun; [reflexivity|]. destruct Hs as [[=] | ->]. unfold kem_oid.
      destruct Hy as [-> | [-> ->]]; cbn [bind]; now rewrite String.eqb_refl. }
    rewrite Q. cbn [bind]. rewrite Hf. cbn [need bind]. rewrite (kdf_known _ _ _ _ _ _ Hg). cbn [guard bind].
    rewrite Hw. cbn [need bind]. rewrite Hn. cbn [need bind]. apply wrap_length_iff in Hz. rewrite Hz. cbn [need bind].
    rewrite Z.eqb_refl. cbn [guard bind]. rewrite He. cbn [need bind].
    assert (Kk : guard (match s_kind k with KKem _ | KRsa => true | _ => false end) EAttribute = Ok tt)
      by (destruct Hy as [-> | [-> _]]; reflexivity).
    rewrite Kk. cbn [bind]. rewrite Hd. cbn [bind]. apply kdf_exact in Hg. rewrite Hg. exact Hu.
Qed.

Lemma no_key L r c pop sun cek : process_kemri L r c None pop sun <> Ok cek.
Proof. intros H. unfold process_kemri in H. binv. Qed.

(** ** Recipients of an EnvelopedData *)
Lemma decode_exact L t x r : decode_kemri L t x = Ok r <-> t = ORI_KEM /\ l_kemdec L x = Some (r, []).
Proof.
  unfold decode_kemri. split.
  - intros H. binv. now split.
  - intros [-> H]. rewrite H. reflexivity.
Qed.
Lemma name_eqb_iff a b : rname_eqb a b = true <-> a = b.
Proof. destruct a, b; cbn; split; congruence. Qed.
Lemma at_exact v size index t r :
  recip_at v size index t = Ok r <-> recipient v size index r /\ match t with Some n => name_of r = n | None => True end.
Proof.
  unfold recip_at, recipient. split.
  - intros H. binv. destruct (nth_error _ _) as [r'|]; [|discriminate]. destruct t as [n|].
    + binv. injection H as <-. apply name_eqb_iff in E0. auto.
    + injection H as <-. auto.
  - intros [[-> ->] H]. rewrite Nat.eqb_refl. cbn [guard bind]. destruct t as [n|]; [|reflexivity].
    apply name_eqb_iff in H. rewrite H. reflexivity.
Qed.
Lemma x_cert_exact L m c : get_kari_cert L m = Ok c <-> x_cert L m c.
Proof.
  unfold get_kari_cert, x_cert. split.
  - destruct (n_extra m) as [|c0 l]; [discriminate|]. intros H. binv. exists c0, l, x. repeat split; [assumption|].
    destruct (is_x (p_kind x)); [injection H as <-; now left|]. right. split; [reflexivity|].
    destruct l as [|c1 l]; [discriminate|]. binv. destruct (is_x (p_kind x0)) eqn:Ex; [|discriminate]. injection H as <-. eauto.
  - intros (c0 & l & p0 & -> & -> & [(Hx & ->) | (Hx & l' & p & -> & Hp & Hxp)]); cbn [bind]; rewrite Hx; [reflexivity|].
    rewrite Hp. cbn [bind]. now rewrite Hxp.
Qed.

Theorem cek_exact L v g index size cek :
  extract_cek L v g index size = Ok cek <-> exists r, recipient v size index r /\ yields L g r cek.
Proof.
  unfold extract_cek, recipient, yields. split.
  - intros H. apply bind_inv in H. destruct H as ([] & S1 & H). apply guard_iff, Nat.eqb_eq in S1.
    destruct (nth_error (v_recips v) index) as [r|] eqn:N; [|discriminate]. exists r. split; [now split|].
    destruct r as [r|r| |r|t x]; [| |discriminate| |].
    + binv. apply ktri_exact in H. eauto.
    + apply bind_inv in H. destruct H as ([] & _ & H). apply bind_inv in H. destruct H as (k & Hk & H).
      apply need_inv in Hk. apply bind_inv in H. destruct H as (kc & Hc & H). unfold extract_kari in H.
      apply bind_inv in H. destruct H as ([] & Hd & H). apply guard_iff in Hd. apply bind_inv in H.
      destruct H as ([[e a] u] & V & H).
      destruct (match kc with Some x => Some x | None => i_cert g end) as [peer|] eqn:P; [|discriminate].
      exists k, peer. repeat split; [assumption..| |].
      * unfold peer_of. destruct (i_kari g) as [c|]; [injection Hc as <-; now injection P as <-|].
        destruct (is_x (s_kind k)); [|injection Hc as <-; exact P]. destruct (i_msg g) as [m|]; [|discriminate].
        binv. injection Hc as <-. injection P as <-. exists m. split; [reflexivity|]. now apply x_cert_exact.
      * apply kari_exact. rewrite V. exact H.
    + apply bind_inv in H. destruct H as ([] & _ & H). apply bind_inv in H. destruct H as ([] & _ & H).
      apply extract_pwri_exact in H. destruct H as (r' & p & s & [= <-] & H). eauto.
    + apply bind_inv in H. destruct H as (r & D & H). apply decode_exact in D. destruct D as [-> D].
      destruct (i_key g) as [k|]; [|now destruct (no_key _ _ _ _ _ _ H)]. apply kemri_exact in H. eauto 6.
  - intros (r & [-> N] & H). rewrite Nat.eqb_refl, N. cbn [guard bind]. destruct r as [r|r| |r|t x].
    + destruct H as (k & Hk & H). pose proof H as (_ & Hr & Ks & _).
      assert (G : guard (i_pop g || match i_cert g with Some _ => true | None => false end) EValueError = Ok tt).
      { destruct Hr as [-> |(c' & i & -> & _)]; [reflexivity|]. now rewrite orb_true_r. }
      rewrite G, Hk. cbn [need bind]. rewrite Ks. cbn [is_x]. apply ktri_exact with (null := i_null g) in H.
      destruct (i_kari g); cbn [bind]; exact H.
    + destruct H as (k & peer & Hk & Hd & Hp & H). pose proof H as (o & a & x & e & kek & _ & _ & _ & _ & Hr & _).
      assert (G : guard (i_pop g || match i_cert g with Some _ => true | None => false end) EValueError = Ok tt).
      { destruct Hr as [-> |(c' & -> & _)]; [reflexivity|]. now rewrite orb_true_r. }
      rewrite G, Hk. cbn [need bind]. apply kari_exact in H. apply bind_inv in H. destruct H as ([[e' a'] u] & V & H).
      unfold peer_of in Hp. unfold extract_kari. rewrite Hd, V. destruct (i_kari g) as [c|].
      * subst. cbn [bind guard]. exact H.
      * destruct (is_x (s_kind k)).
        -- destruct Hp as (m & -> & Hp). apply x_cert_exact in Hp. rewrite Hp. cbn [bind guard]. exact H.
        -- rewrite Hp. cbn [bind guard]. exact H.
    + destruct H.
    + destruct H as (pw & s & Hpw & Hs & H).
      assert (E : extract_pwri L (i_msg g) (i_pw g) (Pwri r) (i_salt g) = Ok cek).
      { apply extract_pwri_exact. exists r, pw, s. auto. }
      rewrite E, Hpw. cbn [guard bind]. unfold protection_salt in Hs.
      destruct (i_salt g); [destruct (i_msg g); reflexivity|]. destruct Hs as (m & a & -> & _). reflexivity.
    + destruct H as (k & r & Hk & -> & D & H).
      assert (E : decode_kemri L ORI_KEM x = Ok r) by now apply decode_exact. rewrite E. cbn [bind]. rewrite Hk.
      now apply kemri_exact.
Qed.

(** ** Opening *)
Theorem open_pwri_exact L v pw m salt size index raw skip d :
  open_pwri L v pw m salt size index raw skip = Ok d
  <-> exists r p s cek, recipient v size index (Pwri r) /\ pw = Some p /\ protection_salt L m salt s
        /\ pwri_yields L r s p cek /\ content_opens L (v_content v) cek raw d
        /\ (skip = true \/ exists m', m = Some m' /\ l_verify L m' p = Ok tt).
Proof.
  unfold open_pwri. split.
  - intros H. apply bind_inv in H. destruct H as ([] & _ & H). apply bind_inv in H. destruct H as (r & R & H).
    apply at_exact in R. destruct R as [R N]. apply bind_inv in H. destruct H as (cek & C & H).
    apply extract_pwri_exact in C. destruct C as (r' & p & s & -> & -> & Hs & Y). apply bind_inv in H.
    destruct H as (d' & D & H). apply content_exact in D. destruct skip.
    + injection H as <-. exists r', p, s, cek. tauto.
    + destruct m as [m|]; [|discriminate]. binv. injection H as <-. exists r', p, s, cek.
      repeat (split; [assumption || reflexivity|]). right. eauto.
  - intros (r & p & s & cek & R & -> & Hs & Y & C & V).
    assert (G : guard (match salt, m with None, None => false | _, _ => true end) EValueError = Ok tt).
    { destruct salt; [destruct m; reflexivity|]. destruct Hs as (m' & a & -> & _). reflexivity. }
    rewrite G. cbn [bind]. assert (A : recip_at v size index (Some NPwri) = Ok (Pwri r)) by (apply at_exact; split; [assumption|reflexivity]).
    rewrite A. cbn [bind].
    assert (E : extract_pwri L m (Some p) (Pwri r) salt = Ok cek) by (apply extract_pwri_exact; exists r, p, s; auto).
    rewrite E. cbn [bind]. apply content_exact in C. rewrite C. cbn [bind].
    destruct V as [-> |(m' & -> & V)]; [reflexivity|]. destruct skip; [reflexivity|]. rewrite V. reflexivity.
Qed.

Theorem open_kemri_exact L v k c size index pop raw sun d :
  open_kemri L v k c size index pop raw sun = Ok d
  <-> exists x r cek, recipient v size index (Ori ORI_KEM x) /\ l_kemdec L x = Some (r, [])
        /\ kemri_yields L r c pop sun k cek /\ content_opens L (v_content v) cek raw d.
Proof.
  unfold open_kemri. split.
  - intros H. apply bind_inv in H. destruct H as (r & R & H). apply at_exact in R. destruct R as [R N].
    destruct r as [| | | |t x]; try discriminate. apply bind_inv in H. destruct H as (r & D & H). apply decode_exact in D.
    destruct D as [-> D]. apply bind_inv in H. destruct H as (cek & C & H). apply kemri_exact in C. apply content_exact in H.
    eauto 8.
  - intros (x & r & cek & R & D & Y & C).
    assert (A : recip_at v size index (Some NOri) = Ok (Ori ORI_KEM x)) by (apply at_exact; split; [assumption|reflexivity]).
    rewrite A. cbn [bind]. assert (E : decode_kemri L ORI_KEM x = Ok r) by now apply decode_exact. rewrite E. cbn [bind].
    apply kemri_exact in Y. rewrite Y. cbn [bind]. now apply content_exact.
Qed.

Theorem open_kari_exact L v k c raw pop d :
  open_kari L v k c raw pop = Ok d
  <-> exists r c' cek, v_recips v = [Kari r] /\ c = Some c' /\ kari_yields L r c pop k c' cek
        /\ content_opens L (v_content v) cek raw d.
Proof.
  unfold open_kari. split.
  - intros H. apply bind_inv in H. destruct H as (r & R & H). apply at_exact in R. destruct R as [[R1 R2] N].
    destruct r as [|r| | |]; try discriminate. apply bind_inv in H. destruct H as ([[e a] u] & V & H).
    destruct c as [c|]; [|discriminate]. apply bind_inv in H. destruct H as (cek & C & H). apply content_exact in H.
    destruct (v_recips v) as [|r0 [|? ?]] eqn:Hv; try discriminate. cbn [nth_error] in R2. injection R2 as ->.
    exists r, c, cek. split; [reflexivity|]. split; [reflexivity|]. split; [|exact H]. apply kari_exact. rewrite V. exact C.
  - intros (r & c' & cek & Hv & -> & Y & C).
    assert (A : recip_at v 1 0 (Some NKari) = Ok (Kari r)).
    { apply at_exact. split; [|reflexivity]. split; rewrite Hv; reflexivity. }
    rewrite A. cbn [bind]. apply kari_exact in Y. apply bind_inv in Y. destruct Y as ([[e a] u] & V & Y). rewrite V.
    cbn [bind]. rewrite Y. cbn [bind]. now apply content_exact.
Qed.

Theorem open_general L v g index size raw d t :
  t <> AName NPwri -> t <> AKemri ->
  (open_env L v g t index size raw = Ok d
   <-> exists r r0 cek, recipient v size index r /\ expects t r /\ recipient v size 0 r0 /\ yields L g r0 cek
         /\ content_opens L (v_content v) cek raw d).
Proof.
  intros N1 N2.
  assert (E : open_env L v g t index size raw =
    (let! _ := recip_at v size index (match t with AName n => Some n | _ => None end) in
     let! cek := extract_cek L v g 0 size in open_content L (v_content v) cek raw)).
  { destruct t as [| |[]]; try reflexivity; contradiction. }
  rewrite E. split.
  - intros H. apply bind_inv in H. destruct H as (r & R & H). apply at_exact in R. destruct R as [R N].
    apply bind_inv in H. destruct H as (cek & C & H). apply cek_exact in C. destruct C as (r0 & R0 & Y). apply content_exact in H.
    exists r, r0, cek. repeat (split; [assumption|]). split; [|auto]. destruct t as [| |n]; cbn; auto. contradiction.
  - intros (r & r0 & cek & R & X & R0 & Y & C).
    assert (A : recip_at v size index (match t with AName n => Some n | _ => None end) = Ok r).
    { apply at_exact. split; [assumption|]. destruct t; auto. }
    rewrite A. cbn [bind]. assert (B : extract_cek L v g 0 size = Ok cek) by (apply cek_exact; eauto). rewrite B. cbn [bind].
    now apply content_exact.
Qed.

Theorem open_env_pwri L v g index size raw d :
  open_env L v g (AName NPwri) index size raw = Ok d
  <-> exists r p s cek m, recipient v size index (Pwri r) /\ i_pw g = Some p /\ protection_salt L (i_msg g) (i_salt g) s
        /\ pwri_yields L r s p cek /\ content_opens L (v_content v) cek raw d /\ i_msg g = Some m /\ l_verify L m p = Ok tt.
Proof.
  cbn [open_env]. split.
  - intros H. apply bind_inv in H. destruct H as ([] & _ & H). apply open_pwri_exact in H.
    destruct H as (r & p & s & cek & ? & ? & ? & ? & ? & [[=] | (m & ? & ?)]). exists r, p, s, cek, m. tauto.
  - intros (r & p & s & cek & m & R & Hp & Hs & Y & C & Hm & V). rewrite Hp. cbn [guard bind]. apply open_pwri_exact.
    exists r, p, s, cek. repeat (split; [assumption || reflexivity|]). right. eauto.
Qed.

Theorem open_env_kemri L v g index size raw d :
  open_env L v g AKemri index size raw = Ok d
  <-> exists k o x r cek, i_key g = Some k /\ s_kind k = KKem o /\ recipient v size index (Ori ORI_KEM x)
        /\ l_kemdec L x = Some (r, []) /\ kemri_yields L r (i_cert g) (i_pop g) false k cek
        /\ content_opens L (v_content v) cek raw d.
Proof.
  cbn [open_env]. split.
  - destruct (i_key g) as [k|]; [|discriminate]. intros H. apply bind_inv in H. destruct H as ([] & K & H).
    apply guard_iff in K. destruct (s_kind k) as [| | | |o|] eqn:Sk; try discriminate. apply open_kemri_exact in H.
    destruct H as (x & r & cek & ? & ? & ? & ?). exists k, o, x, r, cek. tauto.
  - intros (k & o & x & r & cek & -> & -> & H). cbn [guard bind]. apply open_kemri_exact. exists x, r, cek. exact H.
Qed.

Theorem open_ca_exact L v c size index pop raw k h hc d :
  open_kemri_ca L v c size index pop raw k h hc = Ok d
  <-> exists x r o key crt cek, recipient v size index (Ori ORI_KEM x) /\ l_kemdec L x = Some (r, []) /\ km_kem r = Some o
        /\ s_kind key = KKem o
        /\ ((k = Some key /\ crt = c /\ (forall h', h = Some h' -> is_ok (kem_oid h') = true))
            \/ (h = Some key /\ crt = hc /\ (forall k', k = Some k' -> exists y, kem_oid k' = Ok y /\ y <> o)))
        /\ kemri_yields L r crt pop false key cek /\ content_opens L (v_content v) cek raw d.
Proof.
  unfold open_kemri_ca. split.
  - intros H. apply bind_inv in H. destruct H as ([] & _ & H). apply bind_inv in H. destruct H as (r & R & H).
    apply at_exact in R. destruct R as [R N]. destruct r as [| | | |t x]; try discriminate. apply bind_inv in H.
    destruct H as (r & D & H). apply decode_exact in D. destruct D as [-> D]. apply bind_inv in H. destruct H as (o & O & H).
    apply some_inv in O. apply bind_inv in H. destruct H as (ko & Ko & H). apply bind_inv in H. destruct H as (ho & Ho & H).
    apply bind_inv in H. destruct H as ([key crt] & Q & H). apply bind_inv in H. destruct H as ([] & Kk & H).
    apply guard_iff in Kk. apply bind_inv in H. destruct H as (cek & C & H). apply content_exact in H.
    destruct key as [key|]; [|discriminate]. destruct (s_kind key) as [| | | |y|] eqn:Sk; try discriminate.
    apply kemri_exact in C.
    assert (y = o).
    { destruct C as (? & o' & ? & ? & ? & ? & ? & ? & ? & _ & _ & _ & O' & _ & (z & Hz & Hs) & _).
      destruct Hs as [[=] | ->]. destruct Hz as [Hz | [Hz _]]; [|congruence]. congruence. }
    subst y. exists x, r, o, key, crt, cek. repeat (split; [assumption|]). split; [|auto].
    cbv beta zeta in Q. match type of Q with (if ?b then _ else _) = _ => destruct b eqn:Ik end.
    + injection Q as -> ->. left. repeat split. intros h' ->. apply bind_inv in Ho. destruct Ho as (y & Hy & _). now rewrite Hy.
    + match type of Q with (if ?b then _ else _) = _ => destruct b; [|discriminate] end. injection Q as -> ->. right.
      repeat split. intros k' ->. apply bind_inv in Ko. destruct Ko as (y & Hy & [= <-]). exists y. split; [assumption|].
      intros ->. now rewrite String.eqb_refl in Ik.
  - intros (x & r & o & key & crt & cek & R & D & O & Sk & Q & Y & C).
    assert (G : guard (match k, h with None, None => false | _, _ => true end) EValueError = Ok tt).
    { destruct Q as [(-> & _) | (-> & _)]; [reflexivity | destruct k; reflexivity]. }
    rewrite G. cbn [bind].
    assert (A : recip_at v size index (Some NOri) = Ok (Ori ORI_KEM x)) by (apply at_exact; split; [assumption|reflexivity]).
    rewrite A. cbn [bind]. assert (E : decode_kemri L ORI_KEM x = Ok r) by now apply decode_exact. rewrite E. cbn [bind].
    rewrite O. cbn [bind]. apply kemri_exact in Y. apply content_exact in C.
    assert (Ko : kem_oid key = Ok o) by (unfold kem_oid; now rewrite Sk).
    destruct Q as [(-> & -> & Hh) | (-> & -> & Hk)].
    + rewrite Ko. cbn [bind]. destruct h as [h|].
      * specialize (Hh h eq_refl). destruct (kem_oid h) as [y|]; [|discriminate]. cbn [bind]. rewrite String.eqb_refl. cbn [bind].
        rewrite Sk. cbn [guard bind]. rewrite Y. cbn [bind]. exact C.
      * cbn [bind]. rewrite String.eqb_refl. cbn [bind]. rewrite Sk. cbn [guard bind]. rewrite Y. cbn [bind]. exact C.
    + destruct k as [k|].
      * destruct (Hk k eq_refl) as (y & Hy & Ny). rewrite Hy. cbn [bind]. rewrite Ko. cbn [bind].
        assert (F : String.eqb y o = false) by now apply String.eqb_neq. rewrite F, String.eqb_refl. cbn [bind]. rewrite Sk.
        cbn [guard bind]. rewrite Y. cbn [bind]. exact C.
      * rewrite Ko. cbn [bind]. rewrite String.eqb_refl. cbn [bind]. rewrite Sk. cbn [guard bind]. rewrite Y. cbn [bind]. exact C.
Qed.
