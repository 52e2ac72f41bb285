(** Proofs about issuing Sun hybrid certificates. *)
From Coq Require Import String Ascii.
From Verif Require Import Prelude PreludeFacts ProtTab HdrModel ProtMac ChamProofs CatModel CatSpec CatProofs CatCrl SunModel SunSpec SunProofs SunForm SunVerify.
Open Scope string_scope.
Open Scope Z_scope.
Open Scope list_scope.

Lemma key_exts_iff L k h loc e4 e1 : key_exts L k h loc = Ok (e4, e1) <->
  exists a a1, key_value L k false h loc a /\ key_value L k true h loc a1 /\ e4 = ext_of L KEY_EXT a /\ e1 = ext_of L KEY_EXT a1.
Proof.
  unfold key_exts. split.
  - intros H. bd H as x, X. bd H as y, Y. injection H as <- <-. apply key_ext_iff in X, Y. destruct X as (a & A & ->), Y as (b & B & ->). exists a, b. auto.
  - intros (a & a1 & A & B & -> & ->). assert (key_ext L k false h loc false = Ok (ext_of L KEY_EXT a)) as -> by (apply key_ext_iff; exists a; auto). cbn [bind].
    assert (key_ext L k true h loc false = Ok (ext_of L KEY_EXT a1)) as -> by (apply key_ext_iff; exists a1; auto). reflexivity.
Qed.
(** What both ways of issuing do after the key extension: [es] is the list of extensions. *)
Lemma sign_sun_iff L rest a ts es ca altk sh h loc bad c4 e1 : sign_sun L (tbs_of rest a ts es) ca altk sh h loc bad = Ok (c4, e1) <->
  exists s sg sig sa sa1 ta cs, l_sign (l_cat L) altk (l_tbsenc (l_cat L) (tbs_of rest a ts es)) sh false = Ok s /\ l_sigalg (l_cat L) altk sh false = Ok sg
    /\ (if bad then manipulate_first_byte s = Ok sig else sig = s) /\ sig_value L sig sg false sh loc sa /\ sig_value L sig sg true sh loc sa1
    /\ c4 = {| c_tbs := tbs_of rest a ts (es ++ [ext_of L SIG_EXT sa]); c_alg := Some ta; c_sig := cs |}
    /\ l_sign (l_cat L) ca (l_tbsenc (l_cat L) (c_tbs c4)) (Some h) false = Ok cs /\ l_sigalg (l_cat L) ca (Some h) false = Ok ta /\ e1 = ext_of L SIG_EXT sa1.
Proof.
  unfold sign_sun. split.
  - intros H. bd H as s, Ss. bd H as sg, G. bd H as sig, B. bd H as x, X. bd H as y, Y. bd H as cs, C. bd H as ta, T. injection H as <- <-.
    apply sig_ext_iff in X, Y. destruct X as (sa & A & ->), Y as (sa1 & A1 & ->). exists s, sg, sig, sa, sa1, ta, cs. repeat (split; auto). destruct bad; [exact B|congruence].
  - intros (s & sg & sig & sa & sa1 & ta & cs & -> & -> & B & A & A1 & -> & C & T & ->). cbn [bind].
    assert ((if bad then manipulate_first_byte s else Ok s) = Ok sig) as -> by (destruct bad; [exact B|congruence]). cbn [bind].
    assert (sig_ext L sig false sg sh loc false = Ok (ext_of L SIG_EXT sa)) as -> by (apply sig_ext_iff; exists sa; auto). cbn [bind].
    assert (sig_ext L sig true sg sh loc false = Ok (ext_of L SIG_EXT sa1)) as -> by (apply sig_ext_iff; exists sa1; auto). cbn [bind].
    cbn [c_tbs] in C. change (set_texts (tbs_of rest a ts es) (add_ext (t_exts (tbs_of rest a ts es)) (ext_of L SIG_EXT sa))) with (tbs_of rest a ts (es ++ [ext_of L SIG_EXT sa])).
    rewrite C. cbn [bind]. rewrite T. reflexivity.
Qed.
Lemma patch_ext L c o a c' : patch_cert c (ext_of L o a) = Ok c' <-> with_alt L c o a c'.
Proof. apply patch_cert_iff. Qed.
Lemma hash_used_eq L h k n : hash_used L h k n <->
  n = match named h with Some n => n | None => match lookup (l_oid L k) COMPOSITE_SIG_PREHASH_OID_2_HASH with Some n => n | None => "sha256" end end.
Proof.
  unfold hash_used. destruct (named h) as [m|] eqn:N.
  - apply named_some in N. destruct N as [-> N]. split; [|intros ->; auto]. intros [[E _]|[[E|E] _]]; congruence.
  - pose proof (proj1 (named_none _) N) as N'. destruct (lookup _ _) as [m|]; split.
    + intros [[E Q]|[_ [E|[E _]]]]; [|congruence..]. subst h. destruct N' as [N'|N']; congruence.
    + intros ->. auto.
    + intros [[E Q]|[_ [E|[_ E]]]]; [|congruence..]. subst h. destruct N' as [N'|N']; congruence.
    + intros ->. auto.
Qed.
Lemma template_iff L s rest ca altk kloc sloc h given bad c4 c1 : issue_template L s rest ca altk kloc sloc h given bad = Ok (c4, c1) <->
  exists k trad q ts tk own n sig, l_load (l_cat L) s = Ok k /\ l_parts L k = Some (trad, q) /\ l_spki (l_cat L) trad = Ok ts
    /\ l_load (l_cat L) ts = Ok tk /\ l_extensions L tk = Ok own /\ hash_used L h k n
    /\ sun_pair L ts q rest ca altk n kloc n sloc "sha256" n (own ++ exts_of given) [] bad sig c4 c1.
Proof.
  unfold issue_template, sun_pair. split.
  - intros H. bd H as k, K. destruct (l_parts L k) as [[trad q]|] eqn:P; [|discriminate H]. bd H as ts, T. bd H as a, A. bd H as tk, TK. bd H as own, O. cbv zeta in H.
    set (n := match named h with Some _ => _ | None => _ end) in H. bd H as ke, KE. destruct ke as [e4 e1]. bd H as se, SE. destruct se as [x s1]. bd H as y, Y. bd H as z, Z. injection H as <- <-.
    apply key_exts_iff in KE. destruct KE as (ak & ak1 & V & V1 & -> & ->). apply sign_sun_iff in SE.
    destruct SE as (ss & sg & sig & sa & sa1 & ta & cs & H1 & H2 & H3 & H4 & H5 & H6 & H7 & H8 & ->). apply patch_ext in Y, Z.
    rewrite <- !app_assoc in H6. rewrite app_assoc in H1.
    exists k, trad, q, ts, tk, own, n, sig. repeat (split; [first [eassumption | reflexivity]|]). split; [apply hash_used_eq; reflexivity|].
    exists a, ak, ak1, ss, sg, sa, sa1, ta, cs. cbn [app]. rewrite <- !app_assoc in *. cbn [app] in H6. do 11 (split; [first [eassumption | reflexivity]|]). exists y. auto.
  - intros (k & trad & q & ts & tk & own & n & sig & K & P & T & TK & O & Hn & a & ak & ak1 & s0 & sg & sa & sa1 & ta & cs & A & V & V1 & S1 & G & B & W & W1 & E & C & TA & c' & X & Y).
    rewrite K. cbn [bind]. rewrite P, T. cbn [bind]. rewrite A. cbn [bind]. rewrite TK. cbn [bind]. rewrite O. cbn [bind]. cbv zeta. apply hash_used_eq in Hn. rewrite <- Hn.
    assert (key_exts L q (Some n) kloc = Ok (ext_of L KEY_EXT ak, ext_of L KEY_EXT ak1)) as -> by (apply key_exts_iff; exists ak, ak1; auto). cbn [bind].
    cbn [app] in *. rewrite <- app_assoc in S1, E.
    assert (sign_sun L (tbs_of rest a ts (own ++ exts_of given ++ [ext_of L KEY_EXT ak])) ca altk (Some n) n sloc bad = Ok (c4, ext_of L SIG_EXT sa1)) as Q.
    { apply sign_sun_iff. exists s0, sg, sig, sa, sa1, ta, cs. repeat (split; [eassumption|]). split; [|auto]. rewrite E. rewrite <- !app_assoc. reflexivity. }
    unfold tbs_of in Q. rewrite Q. cbn [bind]. apply patch_ext in X, Y. rewrite X. cbn [bind]. rewrite Y. reflexivity.
Qed.

(** ** What is issued is verified *)
Lemma without_id o l : ~ occurs o l -> without o l = l.
Proof.
  induction l as [|e l IH]; [reflexivity|]. rewrite occurs_cons, without_cons. intros N. destruct (string_dec (x_id e) o); [tauto|]. f_equal. apply IH. tauto.
Qed.
Section PairSection.
Context (L : lib) (ts : spki) (q : pub) (rest : bytes) (ca altk : skey) (kn kl sn sl written used : string) (before after : list ext) (bad : bool) (sig : bytes) (c4 c1 : cert).
Context (Q : sun_laws L) (OE : own_encoding L q) (G1 : good_name kn) (G2 : good_name sn) (SV : served L q kl sig sl)
  (NK : ~ occurs KEY_EXT (before ++ after)) (NS : ~ occurs SIG_EXT (before ++ after))
  (P : sun_pair L ts q rest ca altk kn (Some kl) sn (Some sl) written used before after bad sig c4 c1).
Lemma pair_carries : exists sg, l_sigalg (l_cat L) altk (Some sn) false = Ok sg /\ carries L c4 q kn kl false sig sg sn sl false /\ carries L c1 q kn kl true sig sg sn sl true
  /\ once KEY_EXT (exts c4) /\ once SIG_EXT (exts c4).
Proof.
  destruct P as (a & ak & ak1 & s & sg & sa & sa1 & ta & cs & A & V & V1 & S1 & G & B & W & W1 & E & C & TA & c' & X & Y). exists sg. split; [exact G|].
  rewrite occurs_app in NK, NS.
  assert (first_is (exts c4) KEY_EXT (ext_of L KEY_EXT ak)) as F1.
  { rewrite E. exists before, (after ++ [ext_of L SIG_EXT sa]). split; [reflexivity|]. split; [reflexivity|tauto]. }
  assert (first_is (exts c4) SIG_EXT (ext_of L SIG_EXT sa)) as F2.
  { rewrite E. exists (before ++ ext_of L KEY_EXT ak :: after), []. split; [cbn; rewrite <- app_assoc; reflexivity|]. split; [reflexivity|]. rewrite occurs_app, occurs_cons. cbn [x_id ext_of]. pose proof key_sig. tauto. }
  split; [|split; [|split]].
  - split; [rewrite E; cbn; discriminate|]. split; [exists ak; auto|exists sa; auto].
  - split; [exact (with_texts _ _ _ _ _ Y)|]. split; [exists ak1|exists sa1]; split; auto.
    + apply (with_other _ _ _ _ _ _ _ key_sig Y). exact (with_first_is _ _ _ _ _ X).
    + exact (with_first_is _ _ _ _ _ Y).
  - rewrite E. exists before, (ext_of L KEY_EXT ak), (after ++ [ext_of L SIG_EXT sa]). split; [reflexivity|]. split; [reflexivity|]. split; [tauto|].
    rewrite occurs_app, occurs_cons. cbn [x_id ext_of]. pose proof sig_key. pose proof (occurs_nil KEY_EXT). tauto.
  - rewrite E. exists (before ++ ext_of L KEY_EXT ak :: after), (ext_of L SIG_EXT sa), []. split; [cbn; rewrite <- app_assoc; reflexivity|]. split; [reflexivity|]. split; [|apply occurs_nil].
    rewrite occurs_app, occurs_cons. cbn [x_id ext_of]. pose proof key_sig. tauto.
Qed.
Lemma form41 : form "Form4" false false /\ form "Form1" true true. Proof. split; unfold form; auto 8. Qed.
Lemma pair_converts : convert L c1 "Form4" = Ok c4 /\ convert L c4 "Form1" = Ok c1 /\ convert L c4 "Form4" = Ok c4.
Proof.
  destruct P as (a & ak & ak1 & s & sg & sa & sa1 & ta & cs & A & V & V1 & S1 & G & B & W & W1 & E & C & TA & c' & X & Y).
  destruct pair_carries as (sg' & G' & C4 & _). assert (sg' = sg) as -> by congruence.
  destruct (any_form L c4 q kn kl false sig sg sn sl false "Form1" true true Q OE G1 G2 SV C4 (proj2 form41)) as (d & D & Cd & _ & Back).
  assert (d = c1) as ->.
  { apply convert_iff in D. destruct D as (k & v & d1 & F & K & S2). assert (k = true /\ v = true) as [-> ->] by (destruct F as [(_ & -> & ->)|[(H & _)|[(H & _)|(H & _)]]]; try discriminate H; auto).
    destruct C4 as (_ & (b & B1 & B2) & (b' & B3 & B4)).
    assert (forall x y, with_alt L c4 KEY_EXT ak1 x -> with_alt L c4 KEY_EXT ak1 y -> x = y) as WF by (intros x y H1 H2; apply patch_ext in H1, H2; congruence).
    assert (forall z x y, with_alt L z SIG_EXT sa1 x -> with_alt L z SIG_EXT sa1 y -> x = y) as WF' by (intros z x y H1 H2; apply patch_ext in H1, H2; congruence).
    assert (d1 = c') as ->.
    { destruct K as (w & Fw & [[Kw _]|(_ & h & bb & k & w' & Hh & K1 & K2 & K3 & K4)]).
      - pose proof (first_alt_of L c4 KEY_EXT b Q B2) as Fb. assert (w = b) as -> by (destruct Fw as (e & r & F1 & _ & D1), Fb as (e' & r' & F2 & _ & D2); pose proof (first_fun _ _ _ _ F1 F2) as <-; congruence).
        destruct B1 as (B1 & _). congruence.
      - pose proof (first_alt_of L c4 KEY_EXT b Q B2) as Fb. assert (w = b) as -> by (destruct Fw as (e & r & F1 & _ & D1), Fb as (e' & r' & F2 & _ & D2); pose proof (first_fun _ _ _ _ F1 F2) as <-; congruence).
        assert (a_loc b = Some kl) as Lb by (destruct B1 as (_ & _ & _ & _ & B1); exact B1). rewrite Lb in K2, K3. destruct K2 as (x & Ex & _ & Gx). injection Ex as <-.
        assert (bb = l_der L q) as -> by (destruct SV as (_ & SV' & _); congruence).
        assert (k = q) as -> by (destruct K1 as (z & Z1 & Z2), OE as (z' & Z1' & Z2'); congruence).
        assert (h = Some kn) as -> by (pose proof (key_value_hash _ _ _ _ _ _ G1 B1) as Hb; destruct Hh as (z & Z1 & Z2), Hb as (z' & Z1' & Z2'); congruence).
        assert (w' = ak1) as -> by (eapply key_value_fun; eassumption). apply WF; assumption. }
    destruct S2 as (w & Fw & S2).
    assert (first_is (exts c') SIG_EXT (ext_of L SIG_EXT b')) as Fs by (apply (with_other _ _ _ _ _ _ _ sig_key X); exact B4).
    assert (w = b') as -> by (pose proof (first_alt_of L c' SIG_EXT b' Q Fs) as Fb; destruct Fw as (e & r & F1 & _ & D1), Fb as (e' & r' & F2 & _ & D2); pose proof (first_fun _ _ _ _ F1 F2) as <-; congruence).
    destruct S2 as [[Kw _]|(_ & h & v & w' & Hh & K1 & K2 & K3)].
    - destruct B3 as (_ & B3 & _). congruence.
    - assert (a_loc b' = Some sl) as Lb by (destruct B3 as (_ & _ & _ & _ & _ & B3); exact B3). rewrite Lb in K1, K2. destruct K1 as (x & Ex & _ & Gx). injection Ex as <-.
      assert (v = sig) as -> by (destruct SV as (_ & _ & _ & SV'); congruence).
      assert (h = Some sn) as -> by (pose proof (sig_value_hash _ _ _ _ _ _ _ G2 B3) as Hb; destruct Hh as (z & Z1 & Z2), Hb as (z' & Z1' & Z2'); congruence).
      assert (a_alg b' = sg) as Ab by (destruct B3 as (_ & _ & B3 & _); exact B3). rewrite Ab in K2.
      assert (w' = sa1) as -> by (eapply sig_value_fun; eassumption). eapply WF'; eassumption. }
  split; [apply Back; exact (proj1 form41)|]. split; [exact D|].
  destruct (any_form L c4 q kn kl false sig sg sn sl false "Form4" false false Q OE G1 G2 SV C4 (proj1 form41)) as (d & D4 & _ & _ & Back4). pose proof (Back4 "Form4" (proj1 form41)) as H. 
  apply convert_iff. exists false, false, c4. destruct C4 as (_ & (b & B1 & B2) & (b' & B3 & B4)).
  split; [exact (proj1 form41)|]. split; [exists b; split; [exact (first_alt_of L c4 KEY_EXT b Q B2)|left; split; [apply B1|reflexivity]]|exists b'; split; [exact (first_alt_of L c4 SIG_EXT b' Q B4)|left; split; [apply B3|reflexivity]]].
Qed.
Lemma pair_unsigned : exists a ak, l_sigalg (l_cat L) ca (Some written) false = Ok a /\ c_tbs (unsigned c4) = tbs_of rest a ts (before ++ [ext_of L KEY_EXT ak] ++ after)
  /\ exists s, l_sign (l_cat L) altk (l_tbsenc (l_cat L) (c_tbs (unsigned c4))) (Some sn) false = Ok s /\ (if bad then manipulate_first_byte s = Ok sig else sig = s).
Proof.
  destruct P as (a & ak & ak1 & s & sg & sa & sa1 & ta & cs & A & V & V1 & S1 & G & B & W & W1 & E & C & TA & c' & X & Y). exists a, ak. split; [exact A|]. rewrite occurs_app in NS.
  assert (c_tbs (unsigned c4) = tbs_of rest a ts (before ++ [ext_of L KEY_EXT ak] ++ after)) as U.
  { rewrite E. unfold unsigned. cbn [c_tbs t_rest t_alg t_spki]. unfold tbs_of at 1. cbn [t_rest t_alg t_spki]. unfold exts. cbn [c_tbs t_exts tbs_of exts_of]. unfold tbs_of. f_equal.
    rewrite !without_app, (without_id SIG_EXT before), (without_id SIG_EXT after) by tauto. cbn. rewrite app_nil_r. destruct before; reflexivity. }
  split; [exact U|]. exists s. rewrite U. auto.
Qed.
Lemma pair_key : key_valid L c4 q.
Proof.
  destruct pair_carries as (sg & _ & (_ & (b & B1 & B2) & _) & _). pose proof OE as (z & Z1 & Z2). exists b, (l_der L q), (Some kn), z.
  pose proof (key_value_hash _ _ _ _ _ _ G1 B1) as Hb. destruct B1 as (B0 & (s & r & D & Al) & B1 & _ & Lo). destruct SV as (N1 & N2 & _).
  split; [exact (first_alt_of L c4 KEY_EXT b Q B2)|]. split; [exact B0|]. split; [rewrite Lo; exists kl; auto|]. split; [exact Z1|]. split; [exact Z2|]. split; [exact Hb|]. split; [exact B1|]. congruence.
Qed.
Lemma pair_sig k : bad = false -> verified L altk sn sn k -> sig_valid L c4 k None.
Proof.
  intros Bf Vk. destruct pair_carries as (sg & Sg & (_ & _ & (b & B1 & B2)) & _ & _ & On). pose proof (first_alt_of L c4 SIG_EXT b Q B2) as Fb. destruct (once_last _ _ _ _ On Fb) as [La Ad].
  destruct pair_unsigned as (a & ak & A & U & s & S1 & E). rewrite Bf in E. pose proof (sig_value_hash _ _ _ _ _ _ _ G2 B1) as Hb. destruct B1 as (NE & B0 & Al & Dg & _ & Lo). destruct SV as (_ & _ & N1 & N2).
  split; [exact Ad|]. split.
  - intros e I E1. destruct On as (x & f & y & Ex & If & O1 & O2). assert (first_is (exts c4) SIG_EXT f) as Ff by (exists x, y; auto). pose proof (first_fun _ _ _ _ Ff B2) as ->.
    rewrite Ex in I. apply in_app_or in I. destruct I as [I|[<-|I]]; [destruct O1; exists e; auto|reflexivity|destruct O2; exists e; auto].
  - exists b, sig, (Some sn). split; [exact La|]. split; [right; split; [reflexivity|]; rewrite Lo; exists sl; auto|]. split; [exact Hb|]. split; [exact Dg|]. rewrite Al, E. exact (Vk _ _ _ Sg S1).
Qed.
Lemma pair_signed issuer k : l_load (l_cat L) (t_spki (c_tbs issuer)) = Ok k -> l_verifies (l_cat L) k = true -> verified L ca written used k -> signed_by L c4 issuer.
Proof.
  intros Lo Ve Vk. destruct P as (a & ak & ak1 & s & sg & sa & sa1 & ta & cs & A & V & V1 & S1 & G & B & W & W1 & E & C & TA & c' & X & Y).
  exists k, a. split; [exact Lo|]. split; [exact Ve|]. split; [rewrite E; reflexivity|]. replace (c_sig c4) with cs by (rewrite E; reflexivity). exact (Vk _ _ _ A C).
Qed.
Lemma pair_verified issuer ik k others : bad = false -> l_load (l_cat L) (t_spki (c_tbs issuer)) = Ok ik -> l_verifies (l_cat L) ik = true -> verified L ca written used ik ->
  verified L altk sn sn k -> verify_sun L c4 issuer (Some k) true others = Ok tt /\ verify_sun L c1 issuer (Some k) true others = Ok tt.
Proof.
  intros Bf Lo Ve V1 V2. destruct pair_converts as (C1 & _ & C4). split; apply verify_sun_iff; exists c4, k, q; (split; [assumption|]); (split; [exact (pair_signed issuer ik Lo Ve V1)|]); (split; [auto|]);
    (split; [exact pair_key|]); intros _; exact (pair_sig k Bf V2).
Qed.
(** A spoilt alternative signature is refused. *)
Lemma pair_spoilt issuer k others : bad = true ->
  (forall a d s s', l_sigalg (l_cat L) altk (Some sn) false = Ok a -> l_sign (l_cat L) altk d (Some sn) false = Ok s -> manipulate_first_byte s = Ok s' -> l_verify_alg (l_cat L) k a d s' <> Ok tt) ->
  verify_sun L c4 issuer (Some k) true others <> Ok tt /\ verify_sun L c1 issuer (Some k) true others <> Ok tt.
Proof.
  intros Bt Hs. destruct pair_converts as (C1 & _ & C4). pose proof pair_unsigned as (a & ak & A & U & s & S1 & E). rewrite Bt in E.
  assert (~ sig_valid L c4 k None) as Ng.
  { intros (_ & _ & w & v & h & La & Gv & Hh & Dg & Vf). destruct pair_carries as (sg & Sg & (_ & _ & (b & B1 & B2)) & _ & _ & On). pose proof (first_alt_of L c4 SIG_EXT b Q B2) as Fb.
    destruct (once_last _ _ _ _ On Fb) as [Lb _].
    assert (w = b) as ->.
    { destruct La as (e & r & Le & D), Lb as (e' & r' & Le' & D'). apply last_get in Le, Le'. assert (x_val e = x_val e') as Ev by congruence. rewrite Ev in D. congruence. }
    destruct B1 as (_ & _ & Al & _ & _ & Lo). destruct Gv as [Gv|[_ (x & Lx & _ & Gx)]]; [discriminate Gv|]. destruct SV as (_ & _ & _ & N2). rewrite Lo in Lx. injection Lx as <-.
    assert (v = sig) as -> by congruence. rewrite Al in Vf. exact (Hs _ _ _ _ Sg S1 E Vf). }
  split; intros H; apply verify_sun_iff in H; destruct H as (d & k' & z & D & _ & K & _ & Sx); (assert (d = c4) as -> by congruence); (destruct K as [K|[K _]]; [injection K as <-|discriminate K]); exact (Ng (Sx eq_refl)).
Qed.
End PairSection.

(** ** Requests *)
Definition attr_from {A} (l : list (ProtTab.oid * bytes)) (o : ProtTab.oid) (d : bytes -> A -> Prop) (i r : option A) : Prop :=
  (exists p v q x, l = p ++ (o, v) :: q /\ ~ In o (map fst q) /\ d v x /\ r = Some x) \/ (~ In o (map fst l) /\ r = i).
Lemma attr_same A l o (d : bytes -> A -> Prop) v x i r : d v x -> attr_from l o d (Some x) r -> attr_from ((o, v) :: l) o d i r.
Proof.
  intros D [(p & w & q & y & -> & N & Dw & ->)|[N ->]]; left.
  - exists ((o, v) :: p), w, q, y. auto.
  - exists [], v, l, x. auto.
Qed.
Lemma attr_other A l o (d : bytes -> A -> Prop) o' v i r : o' <> o -> attr_from l o d i r -> attr_from ((o', v) :: l) o d i r.
Proof.
  intros N [(p & w & q & y & -> & Nq & Dw & ->)|[Nq ->]].
  - left. exists ((o', v) :: p), w, q, y. auto.
  - right. split; [|reflexivity]. cbn [map fst In]. tauto.
Qed.
Lemma attributes_inv L l : forall q q', attributes L l q = Ok q' ->
  attr_from l "id_altSubPubKeyHashAlgAttr" (alg_in L) (q_key_hash q) (q_key_hash q') /\ attr_from l "id_altSubPubKeyLocAttr" (text_in L) (q_key_loc q) (q_key_loc q')
  /\ attr_from l "id_altSigValueHashAlgAttr" (alg_in L) (q_sig_hash q) (q_sig_hash q') /\ attr_from l "id_altSigValueLocAttr" (text_in L) (q_sig_loc q) (q_sig_loc q').
Proof.
  induction l as [|[o v] l IH]; intros q q'; cbn [attributes].
  - intros H. injection H as <-. repeat split; right; split; auto.
  - destruct (String.eqb_spec o "id_altSubPubKeyHashAlgAttr") as [->|N1].
    { destruct (l_algdec (l_cat L) v) as [[a r]|] eqn:D; [|discriminate]. intros H. apply IH in H. cbn [q_key_hash q_key_loc q_sig_hash q_sig_loc] in H. destruct H as (H1 & H2 & H3 & H4).
      split; [apply (attr_same _ _ _ _ _ a); [exists r; exact D|exact H1]|]. repeat split; apply attr_other; try discriminate; assumption. }
    destruct (String.eqb_spec o "id_altSigValueHashAlgAttr") as [->|N2].
    { destruct (l_algdec (l_cat L) v) as [[a r]|] eqn:D; [|discriminate]. intros H. apply IH in H. cbn [q_key_hash q_key_loc q_sig_hash q_sig_loc] in H. destruct H as (H1 & H2 & H3 & H4).
      split; [apply attr_other; [discriminate|assumption]|]. split; [apply attr_other; [discriminate|assumption]|]. split; [apply (attr_same _ _ _ _ _ a); [exists r; exact D|exact H3]|]. apply attr_other; [discriminate|assumption]. }
    destruct (String.eqb_spec o "id_altSubPubKeyLocAttr") as [->|N3].
    { intros H. bd H as x, X. apply IH in H. cbn [q_key_hash q_key_loc q_sig_hash q_sig_loc] in H. destruct H as (H1 & H2 & H3 & H4).
      split; [apply attr_other; [discriminate|assumption]|]. split; [apply (attr_same _ _ _ _ _ x); [exact X|exact H2]|]. repeat split; apply attr_other; try discriminate; assumption. }
    destruct (String.eqb_spec o "id_altSigValueLocAttr") as [->|N4].
    { intros H. bd H as x, X. apply IH in H. cbn [q_key_hash q_key_loc q_sig_hash q_sig_loc] in H. destruct H as (H1 & H2 & H3 & H4).
      split; [apply attr_other; [discriminate|assumption]|]. split; [apply attr_other; [discriminate|assumption]|]. split; [apply attr_other; [discriminate|assumption]|]. apply (attr_same _ _ _ _ _ x); [exact X|exact H4]. }
    intros H. apply IH in H. destruct H as (H1 & H2 & H3 & H4). repeat split; apply attr_other; assumption.
Qed.
Lemma oid_not_hash h o : rlookup h SHA2_OID_2_NAME = Some o -> exists e, hash_name_to_instance o = Err e.
Proof.
  intros H. apply ProtMacMsg.rlookup_In in H.
  assert (Forall (fun p => match hash_name_to_instance (fst p) with Err _ => True | Ok _ => False end) SHA2_OID_2_NAME) as F by (repeat constructor).
  rewrite Forall_forall in F. apply F in H. cbn [fst] in H. destruct (hash_name_to_instance o) as [x|e]; [destruct H|exists e; reflexivity].
Qed.
Lemma csr_needs_attribute L s so attrs rest ca altk h given : ~ In "id_altSubPubKeyHashAlgAttr" (map fst attrs) -> exists e, issue_csr L s so attrs rest ca altk h given = Err e.
Proof.
  intros N. destruct (issue_csr L s so attrs rest ca altk h given) as [[c4 c1]|e] eqn:H; [|exists e; reflexivity]. exfalso. unfold issue_csr in H.
  bd H as k, K. bd H as [], C. bd H as q, A. apply attributes_inv in A. destruct A as (A & _). cbn [q_key_hash] in A.
  destruct A as [(p & v & r & x & E & _)|[_ A]]; [destruct N; rewrite E, map_app; apply in_or_app; right; left; reflexivity|]. rewrite A in H. bd H as kh, KH. bd H as sh, SH.
  destruct (rlookup h SHA2_OID_2_NAME) as [o|] eqn:R; [|discriminate KH]. injection KH as <-. destruct (l_parts L k) as [[trad pq]|]; [|discriminate H]. bd H as ke, KE. destruct ke as [e4 e1].
  apply key_exts_iff in KE. destruct KE as (a & _ & (_ & _ & (n & m & En & _ & M & _) & _) & _). injection En as <-. destruct (oid_not_hash _ _ R) as (e & E). congruence.
Qed.
Lemma named_lookup so h (x : option string) : x = match named (lookup so COMPOSITE_SIG_PREHASH_OID_2_HASH) with Some n => Some n | None => Some h end -> exists n, x = Some n.
Proof. intros ->. destruct (named _); eexists; reflexivity. Qed.
Lemma ok_inj A (x y : A) : Ok x = Ok y -> x = y. Proof. intros H. now injection H. Qed.
Lemma csr_form L s so attrs rest ca altk h given c4 c1 : issue_csr L s so attrs rest ca altk h given = Ok (c4, c1) ->
  exists k trad q ts a kn kloc sh sn sloc sig, l_load (l_cat L) s = Ok k /\ l_composite L k = true /\ l_parts L k = Some (trad, q) /\ l_spki (l_cat L) trad = Ok ts
    /\ attr_is attrs "id_altSubPubKeyHashAlgAttr" (alg_in L) (Some a) /\ get_hash_from_oid (g_oid a) false = Ok (Some kn)
    /\ attr_is attrs "id_altSubPubKeyLocAttr" (text_in L) kloc
    /\ attr_is attrs "id_altSigValueHashAlgAttr" (alg_in L) sh
    /\ (match sh with
        | Some b => get_hash_from_oid (g_oid b) false = Ok (Some sn)
        | None => lookup so COMPOSITE_SIG_PREHASH_OID_2_HASH = Some sn \/ (lookup so COMPOSITE_SIG_PREHASH_OID_2_HASH = None /\ sn = h)
        end)
    /\ attr_is attrs "id_altSigValueLocAttr" (text_in L) sloc
    /\ sun_pair L ts q rest ca altk kn kloc sn sloc h h [] (exts_of given) false sig c4 c1.
Proof.
  intros H0. pose proof H0 as H. unfold issue_csr in H. bd H as k, K. bd H as [], C. bd H as q, A. apply attributes_inv in A. destruct A as (A1 & A2 & A3 & A4). cbn [q_key_hash q_key_loc q_sig_hash q_sig_loc] in *.
  bd H as kh, KH. bd H as sh, SH. destruct (l_parts L k) as [[trad pq]|] eqn:P; [|discriminate H]. bd H as ke, KE. destruct ke as [e4 e1]. bd H as ts, T. bd H as a, Aa. cbv zeta in H.
  bd H as se, SE. destruct se as [x s1]. bd H as y, Y. bd H as z, Z. injection H as <- <-.
  apply key_exts_iff in KE. destruct KE as (ak & ak1 & V & V1 & -> & ->).
  change {| t_rest := rest; t_alg := Some a; t_spki := ts; t_exts := Some (ext_of L KEY_EXT ak :: exts_of given) |} with (tbs_of rest a ts (ext_of L KEY_EXT ak :: exts_of given)) in SE.
  apply sign_sun_iff in SE. destruct SE as (ss & sg & sig & sa & sa1 & ta & cs & H1 & H2 & H3 & H4 & H5 & H6 & H7 & H8 & ->). apply patch_ext in Y, Z.
  assert (exists kn, kh = Some kn) as (kn & ->) by (destruct V as (_ & _ & (n & m & -> & _) & _); exists n; reflexivity).
  assert (exists sn, sh = Some sn) as (sn & ->) by (destruct H4 as (_ & _ & _ & (n & m & -> & _) & _); exists n; reflexivity).
  destruct (q_key_hash q) as [b|] eqn:B.
  2:{ exfalso. destruct A1 as [(? & ? & ? & ? & _ & _ & _ & Q)|[N _]]; [discriminate Q|]. destruct (csr_needs_attribute L s so attrs rest ca altk h given N) as (e & E). congruence. }
  exists k, trad, pq, ts, b, kn, (q_key_loc q), (q_sig_hash q), sn, (q_sig_loc q), sig.
  split; [exact K|]. split; [exact C|]. split; [exact P|]. split; [exact T|]. split; [exact A1|]. split; [exact KH|]. split; [exact A2|]. split; [exact A3|].
  split; [|split; [exact A4|]].
  - destruct (q_sig_hash q) as [b'|]; [exact SH|]. destruct (lookup so COMPOSITE_SIG_PREHASH_OID_2_HASH) as [n|] eqn:Lk.
    + assert (n <> "") as Nn.
      { apply lookup_In in Lk. unfold COMPOSITE_SIG_PREHASH_OID_2_HASH in Lk. apply in_map_iff in Lk. destruct Lk as (p & Ep & Ip). injection Ep as _ <-.
        assert (Forall (fun p => snd p <> "") COMPOSITE_SIG_HASH) as F by (repeat constructor; discriminate). rewrite Forall_forall in F. apply F, Ip. }
      assert (named (Some n) = Some n) as E by (apply named_some; auto). rewrite E in SH. left. congruence.
    + right. split; [reflexivity|]. cbn [named] in SH. congruence.
  - exists a, ak, ak1, ss, sg, sa, sa1, ta, cs. cbn [app]. do 11 (split; [first [eassumption | reflexivity]|]).
    (* the two replacements commute *)
    assert (exists e, first_is (exts x) SIG_EXT e) as (e & Fe) by (apply with_exts in Y; destruct Y as (p & e & r & E & I & N & _); exists e, p, r; auto).
    assert (exists e, first_is (exts y) KEY_EXT e) as (e' & Fe') by (apply with_exts in Z; destruct Z as (p & e' & r & E & I & N & _); exists e', p, r; auto).
    assert (first_is (exts x) KEY_EXT e') as Fx by (apply (with_other _ _ _ _ _ _ _ key_sig Y); exact Fe').
    exists (setx x (sub (ext_of L KEY_EXT ak1) (exts x))). pose proof (sub_with L x KEY_EXT ak1 e' Fx) as W. split; [exact W|].
    assert (y = setx x (sub (ext_of L SIG_EXT sa1) (exts x))) as Ey.
    { pose proof (sub_with L x SIG_EXT sa1 e Fe) as W'. apply patch_ext in Y, W'. rewrite Y in W'. exact (ok_inj _ _ _ W'). }
    assert (z = setx y (sub (ext_of L KEY_EXT ak1) (exts y))) as Ez.
    { pose proof (sub_with L y KEY_EXT ak1 e' Fe') as W'. apply patch_ext in Z, W'. rewrite Z in W'. exact (ok_inj _ _ _ W'). }
    assert (first_is (exts (setx x (sub (mk_ext L KEY_EXT false ak1) (exts x)))) SIG_EXT e) as F3 by (apply (with_other _ _ _ _ _ _ _ sig_key W); exact Fe).
    pose proof (sub_with L _ SIG_EXT sa1 e F3) as W3. rewrite Ez, Ey. rewrite !setx_exts, !setx_setx in *.
    rewrite (sub_comm (ext_of L KEY_EXT ak1) (ext_of L SIG_EXT sa1)) by discriminate. exact W3.
Qed.
