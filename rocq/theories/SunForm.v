(** Proofs about changing the form of a Sun hybrid certificate. *)
From Coq Require Import String Ascii.
From Verif Require Import Prelude PreludeFacts ProtTab HdrModel ProtMac ChamProofs CatModel CatSpec CatProofs CatCrl SunModel SunSpec SunProofs.
Open Scope string_scope.
Open Scope Z_scope.
Open Scope list_scope.

Lemma with_exts L c o a c' : with_alt L c o a c' -> exists x e y, exts c = x ++ e :: y /\ x_id e = o /\ ~ occurs o x /\ exts c' = x ++ mk_ext L o false a :: y.
Proof. intros (x & e & y & H1 & H2 & H3 & H4 & _). exists x, e, y. repeat split; auto. unfold exts at 1. rewrite H4. reflexivity. Qed.
Lemma with_first_is L c o a c' : with_alt L c o a c' -> first_is (exts c') o (mk_ext L o false a).
Proof. intros H. apply with_exts in H. destruct H as (x & e & y & _ & _ & H & ->). exists x, y. auto. Qed.
Lemma with_first L c o a c' : sun_laws L -> with_alt L c o a c' -> first_alt L c' o a.
Proof. intros Q H. apply with_first_is in H. exists (mk_ext L o false a), []. split; [exact H|]. split; [reflexivity|apply Q]. Qed.
Lemma first_app l1 l2 o e : first_is (l1 ++ l2) o e <-> first_is l1 o e \/ (~ occurs o l1 /\ first_is l2 o e).
Proof.
  induction l1 as [|x l IH]; cbn [app].
  - split; [intros H; right; split; [apply occurs_nil|exact H]|]. intros [(p & q & H & _)|[_ H]]; [destruct p; discriminate H|exact H].
  - rewrite !first_cons, IH, occurs_cons. destruct (string_dec (x_id x) o); tauto.
Qed.
Lemma with_other L c o a c' o' e : o' <> o -> with_alt L c o a c' -> (first_is (exts c') o' e <-> first_is (exts c) o' e).
Proof.
  intros N H. apply with_exts in H. destruct H as (x & y & z & -> & H & _ & ->). rewrite !first_app, !first_cons. cbn [x_id mk_ext]. rewrite H.
  assert (o <> o') as N' by congruence. tauto.
Qed.
Lemma with_other_alt L c o a c' o' b : o' <> o -> with_alt L c o a c' -> (first_alt L c' o' b <-> first_alt L c o' b).
Proof.
  intros N H. unfold first_alt. split; intros (e & r & F & Q); exists e, r; (split; [|exact Q]); apply (with_other L c o a c' o' e N H); exact F.
Qed.
Lemma once_app o x y : once o (x ++ y) <-> (once o x /\ ~ occurs o y) \/ (~ occurs o x /\ once o y).
Proof.
  assert (forall e l, once o (e :: l) <-> (x_id e = o /\ ~ occurs o l) \/ (x_id e <> o /\ once o l)) as C.
  { intros e l. unfold once. split.
    - intros (p & f & q & H & E & P & Q). destruct p as [|g p]; cbn [app] in H; injection H as -> ->; [left; auto|]. rewrite occurs_cons in P.
      right. split; [tauto|]. exists p, f, q. tauto.
    - intros [[E N]|[N (p & f & q & -> & E & P & Q)]]; [exists [], e, l; split; [reflexivity|]; split; [exact E|]; split; [apply occurs_nil|exact N]|].
      exists (e :: p), f, q. split; [reflexivity|]. rewrite occurs_cons. tauto. }
  induction x as [|e x IH]; cbn [app].
  - split; [intros H; right; split; [apply occurs_nil|exact H]|]. intros [[(p & f & q & H & _) _]|[_ H]]; [destruct p; discriminate H|exact H].
  - rewrite !C, IH, occurs_app, occurs_cons. tauto.
Qed.
Lemma once_cons o e l : once o (e :: l) <-> (x_id e = o /\ ~ occurs o l) \/ (x_id e <> o /\ once o l).
Proof.
  unfold once. split.
  - intros (p & f & q & H & E & P & Q). destruct p as [|g p]; cbn [app] in H; injection H as -> ->; [left; auto|]. rewrite occurs_cons in P.
    right. split; [tauto|]. exists p, f, q. tauto.
  - intros [[E N]|[N (p & f & q & -> & E & P & Q)]]; [exists [], e, l; split; [reflexivity|]; split; [exact E|]; split; [apply occurs_nil|exact N]|].
    exists (e :: p), f, q. split; [reflexivity|]. rewrite occurs_cons. tauto.
Qed.
Lemma with_once L c o a c' o' : with_alt L c o a c' -> (once o' (exts c') <-> once o' (exts c)).
Proof.
  intros H. apply with_exts in H. destruct H as (x & y & z & -> & H & _ & ->). rewrite !once_app, !once_cons, !occurs_cons. cbn [x_id mk_ext]. rewrite H. tauto.
Qed.
Lemma once_last L c o a : once o (exts c) -> first_alt L c o a -> last_alt L (exts c) o a /\ all_decoded L (exts c) o.
Proof.
  intros (x & f & y & E & F & N1 & N2) (e & r & (p & q & E' & I & P) & _ & D).
  assert (x = p /\ f = e /\ y = q) as (-> & -> & ->).
  { assert (first_is (exts c) o f) as Q1 by (exists x, y; auto). assert (first_is (exts c) o e) as Q2 by (exists p, q; auto).
    pose proof (first_fun _ _ _ _ Q1 Q2) as ->. split; [|split; [reflexivity|]].
    - rewrite E in E'. clear -E' N1 P I. revert p E' P. induction x as [|g x IH]; intros [|h p] H P; [reflexivity| | |]; cbn [app] in H.
      + injection H as -> _. destruct P. apply occurs_cons. auto.
      + injection H as -> _. destruct N1. apply occurs_cons. auto.
      + injection H as -> H. f_equal. apply IH; [intros Q; apply N1, occurs_cons; auto|exact H|intros Q; apply P, occurs_cons; auto].
    - rewrite E in E'. clear -E' N1 P I. revert p E' P. induction x as [|g x IH]; intros [|h p] H P; cbn [app] in H.
      + congruence.
      + injection H as -> _. destruct P. apply occurs_cons. auto.
      + injection H as -> _. destruct N1. apply occurs_cons. auto.
      + injection H as -> H. apply (IH (fun Q => N1 (proj2 (occurs_cons _ _ _) (or_intror Q))) p H). intros Q; apply P, occurs_cons; auto. }
  split.
  - exists e, r. split; [exists p, q; auto|exact D].
  - intros z Z Iz. rewrite E in Z. apply in_app_or in Z. destruct Z as [Z|[<-|Z]].
    + destruct N1. exists z. auto.
    + exists a, r. exact D.
    + destruct N2. exists z. auto.
Qed.
Lemma key_converted_by L v c c' : sun_laws L -> key_converted L v c c' -> exists a, first_alt L c' KEY_EXT a /\ a_by a = v.
Proof.
  intros Q (a & F & [[H ->]|(_ & h & b & k & a' & _ & _ & _ & H & W)]); [exists a; auto|]. exists a'. split; [exact (with_first _ _ _ _ _ Q W)|]. destruct H as [H _]. exact H.
Qed.
Lemma sig_converted_by L v c c' : sun_laws L -> sig_converted L v c c' -> exists a, first_alt L c' SIG_EXT a /\ a_by a = v.
Proof.
  intros Q (a & F & [[H ->]|(_ & h & s & a' & _ & _ & H & W)]); [exists a; auto|]. exists a'. split; [exact (with_first _ _ _ _ _ Q W)|]. destruct H as (_ & H & _). exact H.
Qed.
Lemma key_sig : KEY_EXT <> SIG_EXT. Proof. discriminate. Qed.
Lemma sig_key : SIG_EXT <> KEY_EXT. Proof. discriminate. Qed.
Lemma converted_form L c f c' : sun_laws L -> once KEY_EXT (exts c) -> once SIG_EXT (exts c) -> convert L c f = Ok c' -> get_form L c' = Ok f.
Proof.
  intros Q O1 O2 H. apply convert_iff in H. destruct H as (k & s & c1 & F & K & S). destruct (key_converted_by _ _ _ _ Q K) as (ak & K1 & K2). destruct (sig_converted_by _ _ _ _ Q S) as (b & S1 & S2).
  assert (once KEY_EXT (exts c1) /\ once SIG_EXT (exts c1)) as [P1 P2].
  { destruct K as (x & _ & [[_ ->]|(_ & h & z & y & w & _ & _ & _ & _ & W)]); [auto|]. rewrite !(with_once _ _ _ _ _ _ W). auto. }
  assert (once KEY_EXT (exts c') /\ once SIG_EXT (exts c')) as [P3 P4].
  { destruct S as (x & _ & [[_ ->]|(_ & h & y & w & _ & _ & _ & W)]); [auto|]. rewrite !(with_once _ _ _ _ _ _ W). auto. }
  assert (first_alt L c' KEY_EXT ak) as K3.
  { destruct S as (x & _ & [[_ ->]|(_ & h & y & w & _ & _ & _ & W)]); [auto|]. apply (with_other_alt _ _ _ _ _ _ _ key_sig W). exact K1. }
  destruct (once_last _ _ _ _ P3 K3) as [L1 D1]. destruct (once_last _ _ _ _ P4 S1) as [L2 D2].
  apply get_form_iff. split; [exact D1|]. split; [exact D2|]. exists ak, b. rewrite K2, S2. auto.
Qed.

(** ** There and back *)
Lemma key_value_fun L k v h loc a a' : key_value L k v h loc a -> key_value L k v h loc a' -> a = a'.
Proof.
  intros (A1 & (s & r & A2 & A3) & A4 & A5 & A6) (B1 & (s' & r' & B2 & B3) & B4 & B5 & B6). destruct a as [x1 x2 x3 x4 x5], a' as [y1 y2 y3 y4 y5]. cbn [a_by a_val a_alg a_hash a_loc] in *.
  assert (s' = s) by congruence. subst. f_equal; try congruence.
  - destruct v; [congruence|]. destruct A4 as (n & m & -> & _ & M & ->), B4 as (n' & m' & E & _ & M' & ->). congruence.
  - destruct A5 as [[N ->]|(n & o & -> & N & O & ->)], B5 as [[N' ->]|(n' & o' & E & N' & O' & ->)].
    + reflexivity.
    + subst h. destruct N; congruence.
    + destruct N'; congruence.
    + congruence.
Qed.
Lemma sig_value_fun L s g v h loc a a' : sig_value L s g v h loc a -> sig_value L s g v h loc a' -> a = a'.
Proof.
  intros (_ & A1 & A2 & A4 & A5 & A6) (_ & B1 & B2 & B4 & B5 & B6). destruct a as [x1 x2 x3 x4 x5], a' as [y1 y2 y3 y4 y5]. cbn [a_by a_val a_alg a_hash a_loc] in *.
  subst. f_equal; try congruence.
  - destruct v; [congruence|]. destruct A4 as (n & m & -> & _ & M & ->), B4 as (n' & m' & E & _ & M' & ->). congruence.
  - destruct A5 as [[-> ->]|(n & o & -> & N & O & ->)], B5 as [[N' ->]|(n' & o' & E & N' & O' & ->)]; congruence.
Qed.
Lemma key_value_hash L k v n loc a : good_name n -> key_value L k v (Some n) loc a -> hash_in a (Some n).
Proof.
  intros (N & m & o & _ & O & G) (_ & _ & _ & H & _). destruct H as [[[H|H] _]|(n' & o' & E & _ & O' & HH)]; [discriminate H|congruence|].
  eexists. split; [exact HH|]. cbn [g_oid]. congruence.
Qed.
Lemma sig_value_hash L s g v n loc a : good_name n -> sig_value L s g v (Some n) loc a -> hash_in a (Some n).
Proof.
  intros (N & m & o & _ & O & G) (_ & _ & _ & _ & H & _). destruct H as [[H _]|(n' & o' & E & _ & O' & HH)]; [discriminate H|].
  eexists. split; [exact HH|]. cbn [g_oid]. congruence.
Qed.
Lemma key_value_ex L k v n loc : good_name n -> own_encoding L k -> exists a, key_value L k v (Some n) loc a.
Proof.
  intros (N & m & o & M & O & _) (s & D & _).
  exists {| a_by := v; a_val := if v then l_der L k else l_hash L m (l_der L k); a_alg := k_alg s; a_hash := Some {| g_oid := o; g_par := None |}; a_loc := loc |}.
  split; [reflexivity|]. split; [exists s, []; auto|]. split; [destruct v; [reflexivity|exists n, m; auto]|]. split; [right; exists n, o; auto|reflexivity].
Qed.
Lemma sig_value_ex L s g v n loc : good_name n -> s <> [] -> exists a, sig_value L s g v (Some n) loc a.
Proof.
  intros (N & m & o & M & O & _) S.
  exists {| a_by := v; a_val := if v then s else l_hash L m s; a_alg := g; a_hash := Some {| g_oid := o; g_par := Some [5; 0] |}; a_loc := loc |}.
  split; [exact S|]. split; [reflexivity|]. split; [reflexivity|]. split; [destruct v; [reflexivity|exists n, m; auto]|]. split; [right; exists n, o; auto|reflexivity].
Qed.
Lemma with_ex L c o a e : first_is (exts c) o e -> exists c', with_alt L c o a c'.
Proof.
  intros (x & y & E & I & N). exists (set_tbs c (set_texts (c_tbs c) (Some (x ++ mk_ext L o false a :: y)))). exists x, e, y. repeat split; auto.
Qed.
Lemma with_back L c o a b c' : t_exts (c_tbs c) <> None -> first_is (exts c) o (mk_ext L o false a) -> with_alt L c o b c' -> with_alt L c' o a c.
Proof.
  intros T F W. pose proof (with_exts _ _ _ _ _ W) as (x & e & y & E1 & I & N & E2). destruct W as (x' & e' & y' & E1' & _ & _ & _ & R). destruct R as (R1 & R2 & R3 & R4 & R5).
  exists x, (mk_ext L o false b), y. split; [exact E2|]. split; [reflexivity|]. split; [exact N|]. split; [|repeat split; congruence].
  assert (first_is (exts c) o e) as F' by (exists x, y; auto). pose proof (first_fun _ _ _ _ F F') as <-.
  unfold exts in E1. destruct (t_exts (c_tbs c)); [|now destruct T]. cbn [exts_of] in E1. rewrite E1. reflexivity.
Qed.
Lemma with_texts L c o a c' : with_alt L c o a c' -> t_exts (c_tbs c') <> None.
Proof. intros (x & e & y & _ & _ & _ & H & _). rewrite H. discriminate. Qed.
Lemma first_alt_of L c o a : sun_laws L -> first_is (exts c) o (mk_ext L o false a) -> first_alt L c o a.
Proof. intros Q F. exists (mk_ext L o false a), []. split; [exact F|]. split; [reflexivity|apply Q]. Qed.
(** One conversion of the key. *)
Lemma key_step L c k n loc v v' a a' : sun_laws L -> own_encoding L k -> good_name n -> loc <> "" -> l_get L loc = Ok (l_der L k) ->
  first_is (exts c) KEY_EXT (mk_ext L KEY_EXT false a) -> key_value L k v (Some n) (Some loc) a -> v' = negb v -> key_value L k v' (Some n) (Some loc) a' ->
  forall c', with_alt L c KEY_EXT a' c' -> key_converted L v' c c'.
Proof.
  intros Q O G Nl S F V -> V' c' W. exists a. split; [exact (first_alt_of _ _ _ _ Q F)|]. right. destruct V as (B & V). split; [rewrite B; now destruct v|].
  exists (Some n), (l_der L k), k, a'. split; [apply (key_value_hash L k v n (Some loc)); [exact G|split; assumption]|]. split; [exact O|].
  destruct V as (_ & V & _ & Al). split; [|rewrite Al; auto]. rewrite Al. destruct v; cbn [negb].
  - split; [intros [X|X]; congruence|congruence].
  - exists loc. auto.
Qed.
Lemma sig_step L c s g n loc v v' a a' : sun_laws L -> good_name n -> loc <> "" -> l_get L loc = Ok s ->
  first_is (exts c) SIG_EXT (mk_ext L SIG_EXT false a) -> sig_value L s g v (Some n) (Some loc) a -> v' = negb v -> sig_value L s g v' (Some n) (Some loc) a' ->
  forall c', with_alt L c SIG_EXT a' c' -> sig_converted L v' c c'.
Proof.
  intros Q G Nl S F V -> V' c' W. exists a. split; [exact (first_alt_of _ _ _ _ Q F)|]. right. pose proof (sig_value_hash _ _ _ _ _ _ _ G V) as Hh. destruct V as (NE & B & Al & V & _ & Lo). split; [rewrite B; now destruct v|].
  exists (Some n), s, a'. split; [exact Hh|]. rewrite Lo, Al. split; [|auto]. destruct v; cbn [negb]; [congruence|]. exists loc. auto.
Qed.
Lemma without_with L c o a c' : with_alt L c o a c' -> without o (exts c') = without o (exts c) /\ map x_id (exts c') = map x_id (exts c).
Proof.
  intros W. apply with_exts in W. destruct W as (x & e & y & -> & E & _ & ->). rewrite !without_app, !without_cons, !map_app. cbn [map x_id mk_ext]. rewrite E.
  destruct (string_dec o o) as [_|N]; [auto|now destruct N].
Qed.
Lemma without_comm o o' l : without o (without o' l) = without o' (without o l).
Proof.
  induction l as [|e l IH]; [reflexivity|]. rewrite !without_cons. destruct (string_dec (x_id e) o'), (string_dec (x_id e) o); rewrite ?without_cons.
  - exact IH.
  - destruct (string_dec (x_id e) o'); [exact IH|contradiction].
  - destruct (string_dec (x_id e) o); [exact IH|contradiction].
  - destruct (string_dec (x_id e) o), (string_dec (x_id e) o'); try contradiction. f_equal. exact IH.
Qed.
Lemma same_with L c o a c' : o = KEY_EXT \/ o = SIG_EXT -> with_alt L c o a c' -> same_but_alts c c'.
Proof.
  intros Ho W. pose proof (without_with _ _ _ _ _ W) as [W1 W2]. destruct W as (x & e & y & _ & _ & _ & _ & H1 & H2 & H3 & H4 & H5).
  repeat split; auto. destruct Ho as [-> | ->]; [now rewrite W1|]. rewrite (without_comm SIG_EXT KEY_EXT (exts c')), (without_comm SIG_EXT KEY_EXT (exts c)). now rewrite W1.
Qed.
Lemma same_refl c : same_but_alts c c. Proof. repeat split. Qed.
Lemma same_trans a b c : same_but_alts a b -> same_but_alts b c -> same_but_alts a c.
Proof. intros (A1 & A2 & A3 & A4 & A5 & A6 & A7) (B1 & B2 & B3 & B4 & B5 & B6 & B7). repeat split; congruence. Qed.

Fixpoint sub (e : ext) (l : list ext) : list ext :=
  match l with [] => [] | x :: r => if String.eqb (x_id x) (x_id e) then e :: r else x :: sub e r end.
Definition setx (c : cert) (l : list ext) : cert := set_tbs c (set_texts (c_tbs c) (Some l)).
Lemma sub_first l e e0 : first_is l (x_id e) e0 -> exists x y, l = x ++ e0 :: y /\ ~ occurs (x_id e) x /\ sub e l = x ++ e :: y.
Proof.
  intros (x & y & -> & I & N). exists x, y. split; [reflexivity|]. split; [exact N|]. induction x as [|g x IH]; cbn [app sub].
  - rewrite I, String.eqb_refl. reflexivity.
  - assert (x_id g <> x_id e) as Q by (intros Q; apply N, occurs_cons; auto). apply String.eqb_neq in Q. rewrite Q. f_equal. apply IH. intros X. apply N, occurs_cons. auto.
Qed.
Lemma sub_with L c o a e0 : first_is (exts c) o e0 -> with_alt L c o a (setx c (sub (mk_ext L o false a) (exts c))).
Proof.
  intros F. destruct (sub_first (exts c) (mk_ext L o false a) e0 F) as (x & y & E & N & R). exists x, e0, y. split; [exact E|]. split; [destruct F as (? & ? & _ & I & _); exact I|].
  split; [exact N|]. split; [cbn; rewrite R; reflexivity|]. repeat split.
Qed.
Lemma sub_id l e : first_is l (x_id e) e -> sub e l = l.
Proof. intros F. destruct (sub_first l e e F) as (x & y & -> & _ & ->). reflexivity. Qed.
Lemma sub_sub e e' l : x_id e = x_id e' -> sub e (sub e' l) = sub e l.
Proof.
  intros E. induction l as [|x l IH]; cbn [sub]; [reflexivity|]. rewrite <- E. destruct (String.eqb (x_id x) (x_id e)) eqn:B; cbn [sub].
  - rewrite <- E, String.eqb_refl. reflexivity.
  - rewrite B, IH. reflexivity.
Qed.
Lemma sub_comm e e' l : x_id e <> x_id e' -> sub e (sub e' l) = sub e' (sub e l).
Proof.
  intros N. assert (x_id e' <> x_id e) as N' by congruence. apply String.eqb_neq in N, N'. induction l as [|x l IH]; cbn [sub]; [reflexivity|].
  destruct (String.eqb_spec (x_id x) (x_id e')) as [E|E].
  - cbn [sub]. rewrite N'. rewrite E, N'. cbn [sub]. rewrite E, String.eqb_refl. reflexivity.
  - cbn [sub]. destruct (String.eqb (x_id x) (x_id e)); cbn [sub].
    + rewrite N. reflexivity.
    + apply String.eqb_neq in E. rewrite E. f_equal. exact IH.
Qed.
Lemma setx_id c : t_exts (c_tbs c) <> None -> setx c (exts c) = c.
Proof. intros T. destruct c as [[r g p x] ca cs]. cbn in *. destruct x; [reflexivity|now destruct T]. Qed.
Lemma setx_exts c l : exts (setx c l) = l. Proof. reflexivity. Qed.
Lemma setx_setx c l m : setx (setx c l) m = setx c m. Proof. reflexivity. Qed.
Lemma key_any L c k n loc v v' a a' : sun_laws L -> own_encoding L k -> good_name n -> loc <> "" -> l_get L loc = Ok (l_der L k) -> t_exts (c_tbs c) <> None ->
  first_is (exts c) KEY_EXT (mk_ext L KEY_EXT false a) -> key_value L k v (Some n) (Some loc) a -> key_value L k v' (Some n) (Some loc) a' ->
  key_converted L v' c (setx c (sub (mk_ext L KEY_EXT false a') (exts c))).
Proof.
  intros Q O G Nl S T F V V'. destruct (bool_dec v' v) as [->|N].
  - assert (a' = a) as -> by (eapply key_value_fun; eassumption). rewrite (sub_id _ _ F), (setx_id _ T). exists a. split; [exact (first_alt_of _ _ _ _ Q F)|]. left. split; [apply V|reflexivity].
  - assert (v' = negb v) as N' by (destruct v, v'; try reflexivity; now destruct N). exact (key_step _ _ _ _ _ _ _ _ _ Q O G Nl S F V N' V' _ (sub_with _ _ _ _ _ F)).
Qed.
Lemma sig_any L c s g n loc v v' a a' : sun_laws L -> good_name n -> loc <> "" -> l_get L loc = Ok s -> t_exts (c_tbs c) <> None ->
  first_is (exts c) SIG_EXT (mk_ext L SIG_EXT false a) -> sig_value L s g v (Some n) (Some loc) a -> sig_value L s g v' (Some n) (Some loc) a' ->
  sig_converted L v' c (setx c (sub (mk_ext L SIG_EXT false a') (exts c))).
Proof.
  intros Q G Nl S T F V V'. destruct (bool_dec v' v) as [->|N].
  - assert (a' = a) as -> by (eapply sig_value_fun; eassumption). rewrite (sub_id _ _ F), (setx_id _ T). exists a. split; [exact (first_alt_of _ _ _ _ Q F)|]. left. split; [apply V|reflexivity].
  - assert (v' = negb v) as N' by (destruct v, v'; try reflexivity; now destruct N). exact (sig_step _ _ _ _ _ _ _ _ _ _ Q G Nl S F V N' V' _ (sub_with _ _ _ _ _ F)).
Qed.
(** Converting to any form gives what carries the same key and signature; converting back gives the certificate. *)
Lemma any_form L c k kn kloc kv s g sn sloc sv f k' s' : sun_laws L -> own_encoding L k -> good_name kn -> good_name sn ->
  served L k kloc s sloc -> carries L c k kn kloc kv s g sn sloc sv -> form f k' s' ->
  exists c', convert L c f = Ok c' /\ carries L c' k kn kloc k' s g sn sloc s' /\ same_but_alts c c'
    /\ forall f0, form f0 kv sv -> convert L c' f0 = Ok c.
Proof.
  intros Q O G1 G2 (Nk & Sk & Ns & Ss) (T & (a & A & F) & (b & B & E)) Hf.
  destruct (key_value_ex L k k' kn (Some kloc) G1 O) as (a' & A'). destruct (sig_value_ex L s g s' sn (Some sloc) G2 (proj1 B)) as (b' & B').
  change {| x_id := KEY_EXT; x_crit := false; x_val := l_altenc L a |} with (mk_ext L KEY_EXT false a) in F.
  change {| x_id := SIG_EXT; x_crit := false; x_val := l_altenc L b |} with (mk_ext L SIG_EXT false b) in E.
  set (eK := mk_ext L KEY_EXT false a) in *. set (eS := mk_ext L SIG_EXT false b) in *.
  set (eK' := mk_ext L KEY_EXT false a'). set (eS' := mk_ext L SIG_EXT false b').
  set (c1 := setx c (sub eK' (exts c))). pose proof (sub_with L c KEY_EXT a' _ F : with_alt L c KEY_EXT a' c1) as W1.
  assert (first_is (exts c1) SIG_EXT eS) as E1 by (apply (with_other _ _ _ _ _ _ _ sig_key W1); exact E).
  set (c' := setx c1 (sub eS' (exts c1))). pose proof (sub_with L c1 SIG_EXT b' _ E1 : with_alt L c1 SIG_EXT b' c') as W2.
  assert (t_exts (c_tbs c1) <> None) as T1 by (cbn; discriminate). assert (t_exts (c_tbs c') <> None) as T2 by (cbn; discriminate).
  assert (first_is (exts c') KEY_EXT eK') as F2 by (apply (with_other _ _ _ _ _ _ _ key_sig W2); exact (with_first_is _ _ _ _ _ W1)).
  pose proof (with_first_is _ _ _ _ _ W2 : first_is (exts c') SIG_EXT eS') as E2.
  exists c'. split; [|split; [|split]].
  - apply convert_iff. exists k', s', c1. split; [exact Hf|]. split; [exact (key_any _ _ _ _ _ _ _ _ _ Q O G1 Nk Sk T F A A')|exact (sig_any _ _ _ _ _ _ _ _ _ _ Q G2 Ns Ss T1 E1 B B')].
  - split; [exact T2|]. split; [exists a'|exists b']; auto.
  - apply (same_trans _ c1); [apply (same_with L c KEY_EXT a'); auto|apply (same_with L c1 SIG_EXT b'); auto].
  - intros f0 F0. apply convert_iff. set (c2 := setx c' (sub eK (exts c'))). exists kv, sv, c2. split; [exact F0|].
    split; [exact (key_any _ _ _ _ _ _ _ _ _ Q O G1 Nk Sk T2 F2 A' A)|].
    pose proof (sub_with L c' KEY_EXT a _ F2 : with_alt L c' KEY_EXT a c2) as W3. assert (t_exts (c_tbs c2) <> None) as T3 by (cbn; discriminate).
    assert (first_is (exts c2) SIG_EXT eS') as E3 by (apply (with_other _ _ _ _ _ _ _ sig_key W3); exact E2).
    pose proof (sig_any _ _ _ _ _ _ _ _ _ _ Q G2 Ns Ss T3 E3 B' B) as R.
    assert (setx c2 (sub (mk_ext L SIG_EXT false b) (exts c2)) = c) as RE; [|rewrite RE in R; exact R]. fold eS.
    unfold c2, c', c1. rewrite !setx_exts, !setx_setx. transitivity (setx c (exts c)); [f_equal|apply setx_id, T].
    rewrite (sub_comm eK eS') by discriminate. rewrite (sub_sub eS eS') by reflexivity. rewrite (sub_sub eK eK') by reflexivity. rewrite (sub_id _ _ F). apply sub_id, E.
Qed.
