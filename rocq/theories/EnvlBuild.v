(** Proofs that what is built is opened again. *)
From Coq Require Import String Lia.
From Verif Require Import Prelude HdrModel EnvlModel EnvlSpec EnvlProofs.
From Verif Require Import ProtMac ChamIssue ChamProofs.
Open Scope string_scope.
Open Scope Z_scope.
Open Scope list_scope.

Theorem content_round L cek iv data b enc e raw d : laws L -> build_content L cek iv data b enc = Ok e ->
  (content_opens L e cek raw d
   <-> d = data /\ aes_key cek
       /\ (if b then match enc with Some x => x | None => SIGNED end else DATA) = (if raw then DATA else SIGNED)).
Proof.
  intros W H. unfold build_content in H. bd H as [], Hi. apply Nat.eqb_eq in Hi. bd H as c, Hc. injection H as <-.
  apply (w_cbc L W) in Hc. unfold content_opens. cbn [e_type e_alg e_data g_oid g_par]. split.
  - intros (Ht & Hs & p & iv' & c' & [= <-] & Hiv & _ & [= <-] & Hd). rewrite (w_iv L W) in Hiv. injection Hiv as <-.
    split; [congruence|]. split; [|exact Ht].
    assert (S1 : forall o n, cbc_size o n -> n = 16 \/ n = 24 \/ n = 32) by (destruct 1; auto).
    apply S1 in Hs. unfold aes_key. lia.
  - intros (-> & Hk & Ht). split; [exact Ht|]. split.
    + destruct Hk as [Hk | [Hk | Hk]]; rewrite Hk; constructor.
    + exists (l_ivenc L iv), iv, c. repeat split; try assumption. apply (w_iv L W).
Qed.

Lemma env_round L recips cek iv data ver enc v : build_env L recips cek iv data ver enc = Ok v ->
  exists e, build_content L cek iv data true enc = Ok e /\ v = {| v_version := ver; v_recips := recips; v_content := e |}.
Proof. unfold build_env. intros H. bd H as e, E. injection H as <-. eauto. Qed.

(** ** Passwords *)
Lemma hkdf_not_pbkdf2 n x : find_oid n hkdf_table = Some x -> x <> PBKDF2.
Proof.
  intros H. apply find_in in H. cbn [hkdf_table In] in H.
  repeat (destruct H as [H|H]; [injection H as <- <-; discriminate|]). destruct H.
Qed.
Theorem pwri_round L pw cek o r s cek' : laws L -> build_pwri L pw cek o = Ok r -> po_bad o = false ->
  (pwri_yields L r s pw cek'
   <-> cek' = cek /\ po_version o = 3 /\ po_kdf o = "pbkdf2" /\ po_nokdf o = false /\ po_len o = 32 /\ po_salt o <> s).
Proof.
  intros W H B. unfold build_pwri in H. apply bind_inv in H. destruct H as ([a key] & E & H). rewrite B in H. cbn [bind] in H.
  injection H as <-. unfold pwri_yields. cbn [pw_version pw_kdf pw_wrap pw_key]. split.
  - intros (a' & par & salt & iter & len & prf & w & key' & k & [= Hv] & Ha & Ho & Hp & Hd & Hn & [= <-] & _ & Hs & [= <-] & Hg & Hu).
    destruct (po_nokdf o); [discriminate|]. injection Ha as <-. destruct (String.eqb (po_kdf o) "pbkdf2") eqn:K.
    + apply String.eqb_eq in K. bd E as prf', Ep. bd E as k', Ek. bd E as w, Ew. injection E as <- <-. cbn [g_par] in Hp.
      injection Hp as <-. rewrite (w_pbk L W) in Hd. injection Hd as <- <- <- <-. apply pbkdf2_iff in Hg.
      assert (k' = k) by congruence. subst k'. apply (w_wrap L W) in Ew. cbn [g_oid] in Hs. inversion Hs. subst.
      repeat split; congruence.
    + destruct (String.eqb (po_kdf o) "hkdf"); [|discriminate]. destruct (find_oid _ hkdf_table) as [x|] eqn:F; [|discriminate].
      apply hkdf_not_pbkdf2 in F. bd E as k', Ek. bd E as w, Ew. injection E as <- <-. contradiction.
  - intros (-> & Hv & Hk & Hn & Hl & Hs). rewrite Hk in E. cbn [String.eqb] in E. change (String.eqb "pbkdf2" "pbkdf2") with true in E.
    bd E as prf, Ep. bd E as k, Ek. bd E as w, Ew. injection E as <- <-. rewrite Hn, Hv. rewrite Hl in *.
    exists {| g_oid := PBKDF2; g_par := Some (l_pbkenc L {| k_salt := Some (po_salt o); k_iter := po_iter o; k_len := Some 32; k_prf := prf |}) |}.
    exists (l_pbkenc L {| k_salt := Some (po_salt o); k_iter := po_iter o; k_len := Some 32; k_prf := prf |}).
    exists (po_salt o), (po_iter o), 32, prf, {| g_oid := WRAP256; g_par := None |}, w, k.
    repeat split; try assumption; try reflexivity.
    + apply (w_pbk L W).
    + constructor.
    + now apply pbkdf2_iff.
    + now apply (w_wrap L W).
Qed.

(** ** Key transport *)
Lemma default_rid c r bad : bad = false -> recipient_id (Some c) None None bad = Ok r -> names r c.
Proof.
  intros ->. unfold recipient_id, names. destruct (c_ski c) as [s|]; cbn [bind]; intros [= <-]; reflexivity.
Qed.
Lemma ktri_padding_fun L a p p' : ktri_padding L a p -> ktri_padding L a p' -> p = p'.
Proof.
  intros [(H & _ & ->) | (H & par & o & h & m & g & Hp & Hd & Hh & Hm & Hg & _ & ->)]
         [(H' & _ & ->) | (H' & par' & o' & h' & m' & g' & Hp' & Hd' & Hh' & Hm' & Hg' & _ & ->)]; try reflexivity;
    rewrite H in H'; try discriminate H'.
  assert (par' = par) by congruence. subst. assert (o' = o) by congruence. subst. assert (m' = m) by congruence. subst. congruence.
Qed.
Theorem ktri_round L k c cek coins oaep isn r kt c' pop cek' : laws L ->
  build_ktri L (public_key k) c cek coins oaep isn r = Ok kt ->
  (ktri_yields L kt c' pop k cek'
   <-> cek' = cek /\ (pop = true \/ exists i x, kt_rid kt = Some i /\ c' = Some x /\ names i x)).
Proof.
  intros W H. unfold build_ktri in H. cbn [public_key p_kind] in H.
  destruct (s_kind k) eqn:Sk; try discriminate. bd H as pad, Hp. bd H as w, Hw. bd H as i, Hi. injection H as <-.
  apply (w_rsa L W) in Hw. unfold ktri_yields. cbn [kt_version kt_rid kt_alg kt_key].
  assert (P : ktri_padding L (if oaep then {| g_oid := OAEP; g_par := Some (l_oaepenc L (oaep_params L)) |} else {| g_oid := RSA; g_par := None |}) pad).
  { destruct oaep.
    - right. split; [reflexivity|]. apply oaep_exact in Hp. destruct Hp as (h & m & g & R). cbn [g_par].
      exists (l_oaepenc L (oaep_params L)), (oaep_params L), h, m, g. split; [reflexivity|]. split; [apply (w_oaep L W)|exact R].
    - left. injection Hp as <-. repeat split. now left. }
  split.
  - intros (_ & Hr & _ & a & p & e & [= <-] & [= <-] & Hpad & Hu). pose proof (ktri_padding_fun _ _ _ _ P Hpad). subst p.
    split; [congruence|]. destruct Hr as [? |(x & y & ? & ? & ?)]; eauto 6.
  - intros (-> & Hr). split; [reflexivity|]. split.
    + destruct Hr as [? |(y & x & ? & ? & ?)]; eauto 6.
    + split; [exact Sk|]. eexists _, pad, w. split; [reflexivity|]. split; [reflexivity|]. split; [exact P|exact Hw].
Qed.

(** ** Key agreement *)
Lemma kari_table h cof x :
  key_of_value (h, cof) (fun a b => String.eqb (fst a) (fst b) && Bool.eqb (snd a) (snd b)) dh_table = Some x -> dh_scheme x h cof.
Proof.
  assert (G : forall l : list (oid * (string * bool)),
    key_of_value (h, cof) (fun a b => String.eqb (fst a) (fst b) && Bool.eqb (snd a) (snd b)) l = Some x -> In (x, (h, cof)) l).
  { unfold key_of_value. induction l as [|[o [h' c']] l IH]; cbn [map find fst snd]; [discriminate|].
    destruct (String.eqb h' h && Bool.eqb c' cof) eqn:E.
    - intros [= <-]. apply andb_prop in E as [E1 E2]. apply String.eqb_eq in E1. apply Bool.eqb_prop in E2. subst. now left.
    - intros H. right. now apply IH. }
  intros H. apply G in H. clear G. cbn [dh_table In] in H.
  repeat (destruct H as [H|H]; [injection H as <- <- <-; constructor|]). destruct H.
Qed.
Lemma mqv_table_inv h x : key_of_value h String.eqb mqv_table = Some x -> mqv_scheme x h.
Proof.
  unfold key_of_value. cbn [mqv_table map find fst snd].
  repeat (match goal with |- context [String.eqb ?a h] => destruct (String.eqb a h) eqn:E; [apply String.eqb_eq in E; subst; intros [= <-]; constructor|clear E] end).
  discriminate.
Qed.

Theorem kari_round L k sk eph c cek ukm o isn og r ka peer : laws L ->
  build_kari L (public_key k) sk eph c cek ukm o isn og r = Ok ka ->
  plain_scheme (s_kind k) o -> ecdh_kind (s_kind k) = true -> ecdh_kind (s_kind sk) = true -> (ko_mqv o = true -> s_kind eph = KEc) ->
  l_load L (c_spki peer) = Ok (public_key sk) ->
  forall c' pop,
  (kari_yields L ka c' pop k peer cek
   <-> pop = true \/ exists x y z e, c' = Some x /\ ka_orig ka = Some y /\ originates y x
                                   /\ ka_keys ka = [{| re_rid := z; re_key := e |}] /\ names z x).
Proof.
  intros W H [Po Px] Kr Ks Ke Hl c' pop. unfold build_kari in H. bd H as x, Hx.
  apply bind_inv in H. destruct H as ([kek u] & Hs & H). bd H as w, Hw. bd H as [], Hg. bd H as gg, Hog. bd H as i, Hi.
  injection H as <-. apply (w_wrap L W) in Hw. unfold kari_yields. cbn [ka_version ka_orig ka_alg ka_keys ka_ukm].
  assert (A : agreed L k peer {| g_oid := x; g_par := Some (l_algenc L {| g_oid := ko_wrap o; g_par := None |}) |} (Some u) kek).
  { unfold agreed. cbn [g_par g_oid]. exists (l_algenc L {| g_oid := ko_wrap o; g_par := None |}), {| g_oid := ko_wrap o; g_par := None |}, (public_key sk).
    split; [reflexivity|]. split; [apply (w_alg L W)|]. split; [exact Hl|]. cbn [g_oid].
    unfold kari_oid in Hx. rewrite Po in Hx. unfold kari_sender in Hs. cbn [public_key p_kind] in *.
    destruct (ko_mqv o) eqn:M.
    - bd Hs as [], Hk. apply andb_prop in Hk as [K1 K2]. apply is_ec_iff in K1, K2. bd Hs as kek', Hd. injection Hs as -> <-.
      right. rewrite K1 in Hx. destruct (key_of_value (ko_hash o) String.eqb mqv_table) as [x'|] eqn:T; [|discriminate].
      injection Hx as ->. apply mqv_table_inv in T. apply derive_exact in Hd.
      exists (ko_hash o). eexists _, _, (public_key eph). split; [exact T|]. split; [exact K1|]. split; [exact K2|].
      split; [reflexivity|]. split; [apply (w_mqvu L W)|]. cbn [m_alg m_key m_added]. split; [reflexivity|].
      split; [apply (w_spki L W)|]. split; [now apply Ke|]. now rewrite <- (w_mqv L W).
    - bd Hs as kek', Hd. injection Hs as -> <-. left. unfold static_dh in Hd.
      destruct (wrap_length (ko_wrap o)); [|discriminate]. bd Hd as z', Hz. apply derive_exact in Hd.
      exists (ko_hash o), (ko_cof o), z'. split; [|split; [exact Ks|split; [now rewrite (w_ecdh L W)|exact Hd]]].
      destruct (s_kind k) eqn:Sk; try discriminate Kr.
      + apply kari_table. destruct (key_of_value _ _ _); congruence.
      + destruct (Px eq_refl) as [-> ->]. injection Hx as <-. constructor.
      + destruct (Px eq_refl) as [-> ->]. injection Hx as <-. constructor. }
  split.
  - intros (o' & a & z & e & kek' & _ & [= <-] & _ & Hk & Hr & _). destruct Hr as [? |(c0 & -> & ? & ?)]; [now left|]. right. eauto 9.
  - intros Hr. exists gg. eexists _, i, w, kek. repeat (split; [reflexivity|]). split; [|split; [exact A|exact Hw]].
    destruct Hr as [? |(x0 & y & z & e & -> & [= <-] & ? & [= <- <-] & ?)]; eauto.
Qed.

Lemma kari_ids c g i : originator_id (Some c) None = Ok g -> kari_rid (Some c) None None = Ok i -> originates g c /\ names i c.
Proof.
  unfold originator_id, kari_rid, originates, names. destruct (c_ski c); intros [= <-] [= <-]; split; reflexivity.
Qed.

(** ** Key encapsulation *)
Lemma wrap_name_size n w : wrap_name n = Ok w -> exists z, wrap_length w = Some z /\ z <> 0.
Proof.
  unfold wrap_name. destruct (String.eqb n _); [intros [= <-]; exists 16; split; [reflexivity|discriminate]|].
  destruct (String.eqb n _); [intros [= <-]; exists 24; split; [reflexivity|discriminate]|].
  destruct (String.eqb n _); [intros [= <-]; exists 32; split; [reflexivity|discriminate]|discriminate].
Qed.
Lemma kek_fits_iff o : kek_fits o <->
  match eo_kek o with
  | None => True
  | Some n => n = 0 \/ exists w, wrap_name (eo_wrap o) = Ok w /\ wrap_size w n
  end.
Proof.
  unfold kek_fits. destruct (eo_kek o) as [n|]; [|tauto]. split; (intros [H | H]; [now left | right]).
  - destruct H as [[-> ->] | [[-> ->] | [-> ->]]]; eexists; (split; [reflexivity | constructor]).
  - destruct H as (w & W & S). unfold wrap_name in W.
    destruct (String.eqb (eo_wrap o) "aes128_wrap") eqn:E1; [injection W as <-; apply String.eqb_eq in E1; inversion S; auto|].
    destruct (String.eqb (eo_wrap o) "aes192_wrap") eqn:E2; [injection W as <-; apply String.eqb_eq in E2; inversion S; auto|].
    destruct (String.eqb (eo_wrap o) "aes256_wrap") eqn:E3; [injection W as <-; apply String.eqb_eq in E3; inversion S; auto | discriminate W].
Qed.

Lemma kdf_built L name h salt a pk ss n info kek :
  build_kdf L name h salt = Ok (a, pk) -> compute_kdf L a pk ss n info = Ok kek ->
  (pk = None /\ String.eqb (substring 0 6 name) "pbkdf2" = false /\ compute_kdf L a None ss n info = Ok kek)
  \/ (String.eqb (substring 0 6 name) "pbkdf2" = true /\ g_oid a = PBKDF2).
Proof.
  unfold build_kdf. intros H K. destruct (String.eqb name "hkdf") eqn:E1.
  - apply String.eqb_eq in E1. subst name. destruct (find_oid _ hkdf_table); [|discriminate]. injection H as <- <-. left. auto.
  - destruct (String.eqb (substring 0 3 name) "kdf") eqn:E2.
    + bd H as s, Hs. injection H as <- <-. left. split; [reflexivity|]. split; [|exact K].
      apply String.eqb_eq in E2. destruct (String.eqb (substring 0 6 name) "pbkdf2") eqn:E3; [|reflexivity].
      apply String.eqb_eq in E3. exfalso. destruct name as [|c0 [|c1 [|c2 t]]]; cbn in E2; try discriminate.
      injection E2 as -> -> -> _. cbn in E3. discriminate.
    + destruct (String.eqb (substring 0 6 name) "pbkdf2"); [|discriminate]. bd H as prf, Hp. injection H as <- <-. right. auto.
Qed.

Theorem kemri_round L k x c cek coins o isn ski bad r km : laws L -> s_kind k = KKem x ->
  build_kemri L (Some (public_key k)) c cek coins o isn ski bad r = Ok km -> eo_ct o = None ->
  forall c' pop cek',
  (kemri_yields L km c' pop false k cek'
   <-> cek' = cek /\ eo_version o = 0 /\ (eo_oid o = None \/ eo_oid o = Some x) /\ kek_fits o
       /\ String.eqb (substring 0 6 (eo_kdf o)) "pbkdf2" = false
       /\ (pop = true \/ exists i y, c' = Some y /\ km_rid km = Some i /\ names i y)).
Proof.
  intros W Sk H Ect c' pop cek'. unfold build_kemri in H. bd H as i, Hi. bd H as w, Hw.
  destruct (wrap_name_size _ _ Hw) as (z & Hz & Nz). rewrite Hz in H. cbn [need] in H. bd H as n, Hn.
  apply bind_inv in H. destruct H as ([[ss ct] oo] & Hss & H). rewrite Ect in Hss. cbn [bind public_key p_kind] in Hss. rewrite Sk in Hss. apply bind_inv in Hss. destruct Hss as ([ss' ct0] & Hen & Hss).
  assert (Q : ss' = ss /\ ct0 = ct /\ oo = match eo_oid o with Some y => Some y | None => Some x end) by (injection Hss as -> -> <-; auto).
  clear Hss. destruct Q as (-> & -> & Hoo). apply bind_inv in H. destruct H as ([a pk] & Hk & H). bd H as kek, Hkek. bd H as e, He.
  injection H as <-. apply (w_wrap L W) in He. pose proof (w_known L W _ _ _ _ _ Hen Sk) as Kn. pose proof (w_kem L W _ _ _ _ n Hen) as De.
  unfold kemri_yields. cbn [km_version km_rid km_kem km_ct km_kdf km_kek km_wrap km_key km_ukm].
  assert (F : kek_fits o <-> n = z).
  { rewrite kek_fits_iff. destruct (eo_kek o) as [m|].
    - destruct (m =? 0) eqn:E0.
      + apply Z.eqb_eq in E0. injection Hn as ->. split; [reflexivity|]. intros _. now left.
      + apply Z.eqb_neq in E0. injection Hn as ->. split.
        * intros [? |(w' & Hw' & S1)]; [contradiction|]. apply wrap_length_iff in S1. congruence.
        * intros ->. right. exists w. split; [exact Hw|]. now apply wrap_length_iff.
    - injection Hn as ->. tauto. }
  destruct (kdf_built _ _ _ _ _ _ _ _ _ _ Hk Hkek) as [(-> & P & Kd) | (P & Pa)].
  - split.
    + intros (i' & o' & ct' & f & n' & w' & e' & ss' & kek' & [= Hv] & [= <-] & Hr & Hko & _ & (y & Hy & Hyo) & [= <-] & [= <-] & [= <-]
              & [= <-] & Hws & [= <-] & Hd & Hg & Hu).
      assert (ss' = ss) by congruence. subst ss'. apply kdf_exact in Hg. assert (kek' = kek) by congruence. subst kek'.
      split; [congruence|]. split; [exact Hv|]. split.
      { destruct Hyo as [[=] | ->]. destruct Hy as [Hy | [Hy _]]; [|congruence]. assert (o' = x) by congruence. subst o'. subst oo.
        destruct (eo_oid o); [right; congruence | now left]. }
      split; [apply F; apply wrap_length_iff in Hws; cbn [g_oid] in Hws; congruence|]. split; [exact P|].
      destruct Hr as [? |(y' & ? & ?)]; [now left|]. right. eauto.
    + intros (-> & Hv & Hoid & Hf & _ & Hr). apply F in Hf. subst n.
      exists i, x, ct, a, z, {| g_oid := w; g_par := None |}, e, ss, kek. rewrite Hv.
      split; [reflexivity|]. split; [reflexivity|]. split; [destruct Hr as [? |(i' & y & -> & [= <-] & ?)]; eauto|].
      split; [subst oo; destruct Hoid as [-> | ->]; reflexivity|]. split; [exact Kn|].
      split; [exists x; split; [now left|now right]|]. repeat (split; [reflexivity|]). cbn [g_oid].
      split; [now apply wrap_length_iff|]. split; [reflexivity|]. split; [exact De|]. split; [now apply kdf_exact|exact He].
  - split.
    + intros (i' & o' & ct' & f & n' & w' & e' & ss' & kek' & _ & _ & _ & _ & _ & _ & _ & [= <-] & _ & _ & _ & _ & _ & Hg & _).
      exfalso. destruct Hg as [(h & Hh & _) | (v2 & par & s & rest & h & Ho & _)].
      * rewrite Pa in Hh. inversion Hh.
      * rewrite Pa in Ho. destruct v2; discriminate Ho.
    + intros (_ & _ & _ & _ & P' & _). congruence.
Qed.

(** ** The exchange *)
Theorem exchange_round L k sk eph c cek iv ukm coins use_oaep data enc v g (raw : bool) : laws L ->
  build_exchange L (public_key k) data (Some sk) eph (Some c) cek iv ukm coins None use_oaep enc = Ok v ->
  (ecdh_kind (s_kind k) = true -> peer_of L g k c /\ l_load L (c_spki c) = Ok (public_key sk)) ->
  i_key g = Some k -> i_cert g = Some c -> aes_key cek ->
  match enc with Some x => x | None => SIGNED end = (if raw then DATA else SIGNED) ->
  open_env L v g Any 0 1 raw = Ok data.
Proof.
  intros W H Hp Hk Hc Ha He. apply open_general; [discriminate..|]. unfold build_exchange in H.
  assert (G : exists r, v_recips v = [r] /\ yields L g r cek /\ exists e, build_content L cek iv data true enc = Ok e /\ v_content v = e).
  { destruct (p_kind (public_key k)) as [| | | |x|] eqn:Kd; cbn [public_key p_kind] in Kd; rewrite Kd in Hp; cbn [ecdh_kind] in Hp;
      [| | | | |discriminate].
    - bd H as kt, Hkt. apply env_round in H. destruct H as (e & E & ->). exists (Ktri kt). split; [reflexivity|]. split; [|eauto].
      cbn [yields]. exists k. split; [exact Hk|]. pose proof (ktri_round _ _ _ _ _ _ _ _ _ (i_cert g) (i_pop g) cek W Hkt) as R.
      apply R. split; [reflexivity|]. right. unfold build_ktri in Hkt. cbn [public_key p_kind] in Hkt. rewrite Kd in Hkt.
      bd Hkt as pad, P. bd Hkt as w, Q. bd Hkt as i, Hi. injection Hkt as <-. exists i, c. split; [reflexivity|]. split; [exact Hc|].
      now apply default_rid in Hi.
    - destruct (Hp eq_refl) as [P1 P2]. bd H as [], Ks. bd H as ka, Hka. apply env_round in H. destruct H as (e & E & ->).
      exists (Kari ka). split; [reflexivity|]. split; [|eauto]. cbn [yields]. exists k, c.
      split; [exact Hk|]. split; [now rewrite Kd|]. split; [exact P1|].
      assert (PS : plain_scheme (s_kind k) kari_defaults) by (split; [reflexivity|intros _; split; reflexivity]).
      assert (EK : ecdh_kind (s_kind k) = true) by (now rewrite Kd).
      assert (EM : ko_mqv kari_defaults = true -> s_kind eph = KEc) by discriminate.
      apply (kari_round _ _ _ _ _ _ _ _ _ _ _ _ _ W Hka PS EK Ks EM P2). right. rewrite Hc.
      unfold build_kari in Hka. bd Hka as x, Hx. apply bind_inv in Hka. destruct Hka as ([kek u] & Hs & Hka). bd Hka as w, Hw.
      bd Hka as [], Hg. bd Hka as og, Hog. bd Hka as i, Hi. injection Hka as <-. cbn [ka_orig ka_keys].
      destruct (kari_ids _ _ _ Hog Hi) as [O N]. exists c, og, i, w. repeat (split; [reflexivity || assumption|]). exact N.
    - destruct (Hp eq_refl) as [P1 P2]. bd H as [], Ks. bd H as ka, Hka. apply env_round in H. destruct H as (e & E & ->).
      exists (Kari ka). split; [reflexivity|]. split; [|eauto]. cbn [yields]. exists k, c.
      split; [exact Hk|]. split; [now rewrite Kd|]. split; [exact P1|].
      assert (PS : plain_scheme (s_kind k) kari_defaults) by (split; [reflexivity|intros _; split; reflexivity]).
      assert (EK : ecdh_kind (s_kind k) = true) by (now rewrite Kd).
      assert (EM : ko_mqv kari_defaults = true -> s_kind eph = KEc) by discriminate.
      apply (kari_round _ _ _ _ _ _ _ _ _ _ _ _ _ W Hka PS EK Ks EM P2). right. rewrite Hc.
      unfold build_kari in Hka. bd Hka as x, Hx. apply bind_inv in Hka. destruct Hka as ([kek u] & Hs & Hka). bd Hka as w, Hw.
      bd Hka as [], Hg. bd Hka as og, Hog. bd Hka as i, Hi. injection Hka as <-. cbn [ka_orig ka_keys].
      destruct (kari_ids _ _ _ Hog Hi) as [O N]. exists c, og, i, w. repeat (split; [reflexivity || assumption|]). exact N.
    - destruct (Hp eq_refl) as [P1 P2]. bd H as [], Ks. bd H as ka, Hka. apply env_round in H. destruct H as (e & E & ->).
      exists (Kari ka). split; [reflexivity|]. split; [|eauto]. cbn [yields]. exists k, c.
      split; [exact Hk|]. split; [now rewrite Kd|]. split; [exact P1|].
      assert (PS : plain_scheme (s_kind k) kari_defaults) by (split; [reflexivity|intros _; split; reflexivity]).
      assert (EK : ecdh_kind (s_kind k) = true) by (now rewrite Kd).
      assert (EM : ko_mqv kari_defaults = true -> s_kind eph = KEc) by discriminate.
      apply (kari_round _ _ _ _ _ _ _ _ _ _ _ _ _ W Hka PS EK Ks EM P2). right. rewrite Hc.
      unfold build_kari in Hka. bd Hka as x, Hx. apply bind_inv in Hka. destruct Hka as ([kek u] & Hs & Hka). bd Hka as w, Hw.
      bd Hka as [], Hg. bd Hka as og, Hog. bd Hka as i, Hi. injection Hka as <-. cbn [ka_orig ka_keys].
      destruct (kari_ids _ _ _ Hog Hi) as [O N]. exists c, og, i, w. repeat (split; [reflexivity || assumption|]). exact N.
    - bd H as km, Hkm. apply env_round in H. destruct H as (e & E & ->). exists (Ori ORI_KEM (l_kemenc L km)).
      split; [reflexivity|]. split; [|eauto]. cbn [yields]. exists k, km. split; [exact Hk|]. split; [reflexivity|].
      split; [apply (w_kemri L W)|]. apply (kemri_round _ _ _ _ _ _ _ _ _ _ _ _ W Kd Hkm eq_refl).
      split; [reflexivity|]. split; [reflexivity|]. split; [now left|]. split; [exact I|]. split; [reflexivity|]. right.
      unfold build_kemri in Hkm. bd Hkm as i, Hi. bd Hkm as w, Hw. bd Hkm as n, Hn. apply bind_inv in Hkm.
      destruct Hkm as ([[ss ct] oo] & Hss & Hkm). apply bind_inv in Hkm. destruct Hkm as ([a pk] & Hkd & Hkm). bd Hkm as kek, Hkek.
      bd Hkm as ee, Hee. injection Hkm as <-. exists i, c. split; [exact Hc|]. split; [reflexivity|]. now apply default_rid in Hi. }
  destruct G as (r & Hr & Hy & e & Hb & Hv). exists r, r, cek.
  assert (R : recipient v 1 0 r) by (split; rewrite Hr; reflexivity).
  split; [exact R|]. split; [exact I|]. split; [exact R|]. split; [exact Hy|]. rewrite Hv.
  apply (content_round _ _ _ _ _ _ _ _ _ W Hb). auto.
Qed.

(** ** A password *)

Theorem env_pwri_round L pw data cek salt iv kdf (raw : bool) o v g (raw' : bool) d : laws L ->
  build_env_pwri L pw data cek salt iv kdf raw o = Ok v -> i_pw g = Some pw ->
  (open_env L v g (AName NPwri) 0 1 raw' = Ok d
   <-> d = data /\ aes_key cek /\ (if raw then DATA else o) = (if raw' then DATA else SIGNED)
       /\ (exists s, protection_salt L (i_msg g) (i_salt g) s /\ s <> salt)
       /\ exists m, i_msg g = Some m /\ l_verify L m pw = Ok tt).
Proof.
  intros W H P. unfold build_env_pwri in H. bd H as r, R. apply env_round in H. destruct H as (e & E & ->).
  rewrite open_env_pwri. split.
  - intros (r' & p & s & cek' & m & [_ N] & P' & S & Y & C & M & V). cbn [v_recips nth_error] in N. injection N as <-.
    assert (p = pw) by congruence. subst p. apply (pwri_round _ _ _ _ _ _ _ W R eq_refl) in Y. destruct Y as (-> & _ & _ & _ & _ & Y).
    cbn [v_content] in C. apply (content_round _ _ _ _ _ _ _ _ _ W E) in C. destruct C as (-> & A & T).
    split; [reflexivity|]. split; [exact A|]. split; [exact T|]. split; [|now exists m]. exists s. split; [exact S | intro Q; apply Y; now symmetry].
  - intros (-> & A & T & (s & S & NS) & m & M & V). exists r, pw, s, cek, m. split; [split; reflexivity|]. split; [exact P|]. split; [exact S|].
    split; [|split; [|split; assumption]].
    + apply (pwri_round _ _ _ _ _ _ _ W R eq_refl). repeat (split; [reflexivity|]). intro Q. apply NS. now symmetry.
    + cbn [v_content]. apply (content_round _ _ _ _ _ _ _ _ _ W E). auto.
Qed.
