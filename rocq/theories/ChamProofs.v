From Coq Require Import String Permutation.
From Verif Require Import Prelude HdrModel ProtMac ProtSig ChamModel ChamSpec.
Open Scope string_scope.
Open Scope Z_scope.
Open Scope list_scope.

(** ** Basics *)

Lemma bytes_eqb_iff a b : bytes_eqb a b = true <-> a = b.
Proof.
  revert b. induction a as [|x a IH]; intros [|y b]; cbn [bytes_eqb]; split; try discriminate; try reflexivity.
  - intro H. apply andb_true_iff in H as [H1 H2]. apply Z.eqb_eq in H1. apply IH in H2. now subst.
  - intro H. injection H as -> ->. rewrite Z.eqb_refl. now apply IH.
Qed.

Lemma compare_alg_iff a b : compare_alg_id a b = true <-> a = b.
Proof.
  unfold compare_alg_id. destruct a as [o p], b as [o' p']. cbn [g_oid g_par]. rewrite andb_true_iff, String.eqb_eq.
  split.
  - intros [-> H]. destruct p, p'; try discriminate H; [apply bytes_eqb_iff in H; now subst | reflexivity].
  - intro H. injection H as -> ->. split; [reflexivity|]. destruct p'; [now apply bytes_eqb_iff | reflexivity].
Qed.

Lemma get_none l o : get_extension l o = None <-> ~ In o (ids l).
Proof.
  induction l as [|e r IH]; cbn [get_extension ids map In]; [tauto|].
  destruct (String.eqb (x_id e) o) eqn:E.
  - apply String.eqb_eq in E. split; [discriminate | intro H; exfalso; apply H; now left].
  - apply String.eqb_neq in E. rewrite IH. unfold ids. tauto.
Qed.

Lemma get_some l o e : get_extension l o = Some e -> x_id e = o /\ In e l.
Proof.
  induction l as [|x r IH]; cbn [get_extension]; [discriminate|].
  destruct (String.eqb (x_id x) o) eqn:E.
  - intro H. injection H as <-. split; [now apply String.eqb_eq | now left].
  - intro H. destruct (IH H). split; [assumption | now right].
Qed.

Lemma get_split l o e : get_extension l o = Some e <->
  exists b a, l = b ++ e :: a /\ ~ In o (ids b) /\ x_id e = o.
Proof.
  split.
  - induction l as [|x r IH]; cbn [get_extension]; [discriminate|].
    destruct (String.eqb (x_id x) o) eqn:E.
    + intro H. injection H as <-. exists [], r. split; [reflexivity|]. split; [intros [] | now apply String.eqb_eq].
    + intro H. destruct (IH H) as (b & a & -> & N & I). exists (x :: b), a. split; [reflexivity|]. split; [|exact I].
      apply String.eqb_neq in E. cbn [ids map In]. intros [C | C]; [now apply E | now apply N].
  - intros (b & a & -> & N & I). induction b as [|x b IH]; cbn [app get_extension].
    + rewrite I, String.eqb_refl. reflexivity.
    + cbn [ids map In] in N. destruct (String.eqb (x_id x) o) eqn:E; [apply String.eqb_eq in E; exfalso; apply N; now left|].
      apply IH. intro C. apply N. now right.
Qed.

Lemma get_app l l' o : ~ In o (ids l) -> get_extension (l ++ l') o = get_extension l' o.
Proof.
  induction l as [|x r IH]; cbn [app get_extension ids map In]; [reflexivity|]. intro N.
  destruct (String.eqb (x_id x) o) eqn:E; [apply String.eqb_eq in E; exfalso; apply N; now left|].
  apply IH. unfold ids. tauto.
Qed.

Lemma others_id l : ~ In DCD (ids l) -> others l = l.
Proof.
  unfold others. induction l as [|x r IH]; cbn [filter ids map In]; [reflexivity|]. intro N.
  destruct (String.eqb (x_id x) DCD) eqn:E; [apply String.eqb_eq in E; exfalso; apply N; now left|].
  cbn [negb]. f_equal. apply IH. unfold ids. tauto.
Qed.

Lemma others_app l l' : others (l ++ l') = others l ++ others l'.
Proof. unfold others. apply filter_app. Qed.

(** ** Replacing extensions *)

Lemma replace_ok l e : is_ok (replace_ext l e) = true <-> In (x_id e) (ids l).
Proof.
  induction l as [|x r IH]; cbn [replace_ext ids map In]; [split; [discriminate | intros []]|].
  destruct (String.eqb (x_id x) (x_id e)) eqn:E.
  - apply String.eqb_eq in E. split; [now left | reflexivity].
  - apply String.eqb_neq in E. split.
    + destruct (replace_ext r e) eqn:R; [intros _; right; now apply (proj1 IH) | discriminate].
    + intros [C | C]; [now elim E|]. apply IH in C. destruct (replace_ext r e); [reflexivity | discriminate C].
Qed.

Lemma replace_ids l e l' : replace_ext l e = Ok l' -> ids l' = ids l.
Proof.
  revert l'. induction l as [|x r IH]; cbn [replace_ext]; intros l' H; [discriminate|].
  destruct (String.eqb (x_id x) (x_id e)) eqn:E.
  - injection H as <-. reflexivity.
  - destruct (replace_ext r e) eqn:R; [|discriminate H]. cbn [bind] in H. injection H as <-. cbn [ids map].
    f_equal. now apply IH.
Qed.

Lemma replace_map l e l' : NoDup (ids l) -> replace_ext l e = Ok l' ->
  l' = map (fun x => if String.eqb (x_id x) (x_id e) then e else x) l.
Proof.
  revert l'. induction l as [|x r IH]; cbn [replace_ext]; intros l' ND H; [discriminate|].
  cbn [ids map] in ND. inversion ND as [|? ? NI ND']; subst.
  destruct (String.eqb (x_id x) (x_id e)) eqn:E.
  - injection H as <-. cbn [map]. rewrite E. apply String.eqb_eq in E. f_equal.
    + destruct e. cbn in *. now rewrite E.
    + rewrite <- (map_id r) at 1. apply map_ext_in. intros y Y.
      destruct (String.eqb (x_id y) (x_id e)) eqn:E2; [|reflexivity]. apply String.eqb_eq in E2. exfalso. apply NI.
      rewrite E, <- E2. now apply in_map.
  - destruct (replace_ext r e) eqn:R; [|discriminate H]. cbn [bind] in H. injection H as <-. cbn [map]. rewrite E.
    f_equal. now apply IH.
Qed.

Lemma replaces_ok l new : is_ok (replace_exts l new) = true <-> (forall e, In e new -> In (x_id e) (ids l)).
Proof.
  revert l. induction new as [|e r IH]; intro l; cbn [replace_exts]; [split; [intros _ e [] | reflexivity]|].
  pose proof (replace_ok l e) as R. destruct (replace_ext l e) as [l'|] eqn:E; cbn [bind].
  - rewrite IH. pose proof (replace_ids _ _ _ E) as I. rewrite I. split.
    + intros H x [<- | X]; [now apply R | now apply H].
    + intros H x X. apply H. now right.
  - split; [discriminate|]. intro H. cbn [is_ok] in R. discriminate (proj2 R (H e (or_introl eq_refl))).
Qed.

Lemma replaces_ids l new l' : replace_exts l new = Ok l' -> ids l' = ids l.
Proof.
  revert l. induction new as [|e r IH]; intros l H; cbn [replace_exts] in H; [now injection H as <-|].
  apply bind_inv in H as (l1 & H1 & H). rewrite (IH _ H). now apply replace_ids in H1.
Qed.

(** With distinct types, the extension of a type is the last one given for it, or the old one. *)
Fixpoint last_of (o : oid) (l : list ext) : option ext :=
  match l with
  | [] => None
  | e :: r => match last_of o r with Some x => Some x | None => if String.eqb (x_id e) o then Some e else None end
  end.

Lemma last_of_none o l : last_of o l = None <-> ~ In o (ids l).
Proof.
  induction l as [|e r IH]; cbn [last_of ids map In]; [tauto|].
  destruct (last_of o r) eqn:E.
  - split; [discriminate|]. intro H. exfalso. assert (N : ~ In o (ids r)) by (unfold ids; tauto). apply IH in N. discriminate.
  - pose proof (proj1 IH eq_refl) as N. unfold ids in N. destruct (String.eqb (x_id e) o) eqn:S.
    + apply String.eqb_eq in S. split; [discriminate | intro H; exfalso; apply H; now left].
    + apply String.eqb_neq in S. tauto.
Qed.

Lemma last_of_some o l e : last_of o l = Some e -> x_id e = o /\ In e l.
Proof.
  revert e. induction l as [|x r IH]; cbn [last_of]; intros e H; [discriminate|].
  destruct (last_of o r) eqn:E.
  - injection H as <-. destruct (IH e0 eq_refl). split; [assumption | now right].
  - destruct (String.eqb (x_id x) o) eqn:S; [|discriminate H]. injection H as <-. split; [now apply String.eqb_eq | now left].
Qed.

Lemma replaces_map l new l' : NoDup (ids l) -> replace_exts l new = Ok l' ->
  l' = map (fun x => match last_of (x_id x) new with Some e => e | None => x end) l.
Proof.
  revert l. induction new as [|e r IH]; intros l ND H; cbn [replace_exts] in H.
  - injection H as <-. rewrite <- (map_id l) at 1. reflexivity.
  - apply bind_inv in H as (l1 & H1 & H). pose proof (replace_ids _ _ _ H1) as I.
    rewrite (IH l1 ltac:(now rewrite I) H), (replace_map _ _ _ ND H1), map_map. apply map_ext. intro x.
    cbn [last_of]. destruct (String.eqb (x_id x) (x_id e)) eqn:E.
    + apply String.eqb_eq in E. rewrite <- E, String.eqb_refl. destruct (last_of (x_id x) r); reflexivity.
    + rewrite String.eqb_sym, E. destruct (last_of (x_id x) r); reflexivity.
Qed.

(** ** The descriptor made *)

Lemma clean_in b d e : In e (clean_exts b d) ->
  exists x, In x b /\ get_extension d (x_id x) = Some e /\ (x_crit e <> x_crit x \/ x_val e <> x_val x).
Proof.
  induction b as [|x r IH]; cbn [clean_exts]; [intros []|]. intro H.
  assert (G : In e (clean_exts r d) -> exists x0, In x0 (x :: r) /\ get_extension d (x_id x0) = Some e /\
     (x_crit e <> x_crit x0 \/ x_val e <> x_val x0)) by (intro C; destruct (IH C) as (y & Y & R); exists y; split; [now right | exact R]).
  destruct (get_extension d (x_id x)) as [y|] eqn:E; [|now apply G].
  destruct (Bool.eqb (x_crit y) (x_crit x)) eqn:C; cbn [negb] in H.
  - destruct (bytes_eqb (x_val y) (x_val x)) eqn:V; cbn [negb] in H; [now apply G|].
    destruct H as [<- | H]; [|now apply G]. exists x. split; [now left|]. split; [exact E|]. right. intro Q.
    apply bytes_eqb_iff in Q. congruence.
  - destruct H as [<- | H]; [|now apply G]. exists x. split; [now left|]. split; [exact E|]. left. intro Q.
    rewrite Q, Bool.eqb_reflx in C. discriminate C.
Qed.

Lemma clean_ids b d o : In o (ids (clean_exts b d)) -> In o (ids b).
Proof.
  intro H. apply in_map_iff in H as (e & <- & H). apply clean_in in H as (x & X & G & _). apply get_some in G as [G _].
  rewrite G. now apply in_map.
Qed.

Lemma clean_last b d x : NoDup (ids b) -> In x b ->
  match last_of (x_id x) (clean_exts b d) with Some e => e | None => x end =
  match get_extension d (x_id x) with Some e => e | None => x end.
Proof.
  induction b as [|y r IH]; cbn [clean_exts]; intros ND X; [destruct X|].
  cbn [ids map] in ND. inversion ND as [|? ? NI ND']; subst.
  destruct X as [-> | X].
  - assert (N : last_of (x_id x) (clean_exts r d) = None)
      by (apply last_of_none; intro C; apply NI; now apply clean_ids in C).
    destruct (get_extension d (x_id x)) as [e|] eqn:G; [|now rewrite N].
    pose proof (proj1 (get_some _ _ _ G)) as GI.
    assert (P : last_of (x_id x) (e :: clean_exts r d) = Some e)
      by (cbn [last_of]; rewrite N, GI, String.eqb_refl; reflexivity).
    destruct (Bool.eqb (x_crit e) (x_crit x)) eqn:C; cbn [negb]; [|now rewrite P].
    destruct (bytes_eqb (x_val e) (x_val x)) eqn:V; cbn [negb]; [|now rewrite P].
    rewrite N. apply Bool.eqb_prop in C. apply bytes_eqb_iff in V. destruct e, x. cbn in *. congruence.
  - specialize (IH ND' X). destruct (get_extension d (x_id y)) as [e|] eqn:G; [|exact IH].
    pose proof (proj1 (get_some _ _ _ G)) as GI.
    assert (NE : String.eqb (x_id e) (x_id x) = false).
    { apply String.eqb_neq. intro Q. apply NI. rewrite <- GI, Q. now apply in_map. }
    assert (P : match last_of (x_id x) (e :: clean_exts r d) with Some z => z | None => x end =
                match last_of (x_id x) (clean_exts r d) with Some z => z | None => x end).
    { cbn [last_of]. destruct (last_of (x_id x) (clean_exts r d)); [reflexivity|]. now rewrite NE. }
    destruct (negb (Bool.eqb (x_crit e) (x_crit y))); [now rewrite P|].
    destruct (negb (bytes_eqb (x_val e) (x_val y))); [now rewrite P | exact IH].
Qed.

Lemma merged b d : NoDup (ids b) ->
  exists r, replace_exts b (clean_exts b d) = Ok r /\
    r = map (fun x => match get_extension d (x_id x) with Some e => e | None => x end) b.
Proof.
  intro ND. pose proof (proj2 (replaces_ok b (clean_exts b d))) as K.
  destruct (replace_exts b (clean_exts b d)) as [r|] eqn:R.
  - exists r. split; [reflexivity|]. rewrite (replaces_map _ _ _ ND R). apply map_ext_in. intros x X. now apply clean_last.
  - discriminate K. intros e' E. apply clean_in in E as (x & X & G & _). apply get_some in G as [G _]. rewrite G. now apply in_map.
Qed.

Lemma get_nodup l e : NoDup (ids l) -> In e l -> get_extension l (x_id e) = Some e.
Proof.
  induction l as [|x r IH]; intros ND I; [destruct I|]. destruct I as [-> | I]; cbn [get_extension].
  - now rewrite String.eqb_refl.
  - cbn [ids map] in ND. inversion ND as [|? ? NI ND']; subst.
    destruct (String.eqb (x_id x) (x_id e)) eqn:E; [|now apply IH]. apply String.eqb_eq in E. exfalso. apply NI. rewrite E.
    now apply in_map.
Qed.

Lemma merged_all b d : NoDup (ids b) ->
  (map (fun x => match get_extension d (x_id x) with Some e => e | None => x end) b = d <-> ids d = ids b).
Proof.
  intro ND. split.
  - intros <-. unfold ids at 1. rewrite map_map. apply map_ext. intro x.
    destruct (get_extension d (x_id x)) eqn:G; [now apply get_some in G | reflexivity].
  - intro I. assert (ND' : NoDup (ids d)) by now rewrite I. pose proof (fun e => get_nodup d e ND') as GN.
    assert (G : forall l b', ids l = ids b' -> (forall e, In e l -> In e d) ->
      map (fun x => match get_extension d (x_id x) with Some e => e | None => x end) b' = l).
    { induction l as [|x l IH]; intros [|y b'] Q S; cbn [ids map] in Q; try discriminate Q; [reflexivity|].
      injection Q as Q1 Q2. cbn [map]. rewrite <- Q1, (GN x (S x (or_introl eq_refl))). f_equal. apply IH; [exact Q2|].
      intros e E. apply S. now right. }
    apply G; [exact I | auto].
Qed.

(** ** The paired certificate *)

Lemma build_inv L delta base k pss crit hash c : build_paired L delta base k pss crit hash = Ok c ->
  exists h a s, (match hash with Some x => Ok (Some x) | None => l_hash L (g_oid (t_alg (c_tbs delta))) end) = Ok h /\
    l_alg L k h pss = Ok a /\
    c_tbs c = set_talg (set_texts base (t_exts base ++
      [{| x_id := DCD; x_crit := crit; x_val := l_denc L (prepare_dcd delta base) |}])) a /\ c_alg c = a /\
    l_sign L k h pss (l_tbs L (c_tbs c)) = Ok s /\ c_sig c = s.
Proof.
  unfold build_paired, sign_cert. intro H. apply bind_inv in H as (h & H1 & H). apply bind_inv in H as (a & H2 & H).
  apply bind_inv in H as (s & H3 & H). injection H as <-. exists h, a, s. cbn. repeat split; assumption.
Qed.

Lemma build_find L delta base k pss crit hash c : cham_ok L -> ~ In DCD (ids (t_exts base)) ->
  build_paired L delta base k pss crit hash = Ok c -> find_dcd L c = Ok (prepare_dcd delta base).
Proof.
  intros OK N H. apply build_inv in H as (h & a & s & _ & _ & T & _). unfold find_dcd. rewrite T. cbn [set_talg set_texts t_exts].
  rewrite get_app by exact N. cbn [get_extension x_id]. rewrite String.eqb_refl. cbn [x_val]. rewrite (ck_dcd _ OK). reflexivity.
Qed.

(** What is had back, whatever was paired. *)
Definition merge_exts (b d : list ext) : list ext :=
  map (fun x => match get_extension d (x_id x) with Some e => e | None => x end) b.

Lemma build_rebuild L delta base k pss crit hash c : cham_ok L -> NoDup (ids (t_exts base)) -> ~ In DCD (ids (t_exts base)) ->
  build_paired L delta base k pss crit hash = Ok c ->
  exists sa so, rebuild L c =
    Ok {| c_tbs := {| t_version := t_version base; t_serial := t_serial (c_tbs delta); t_alg := sa;
                      t_issuer := t_issuer (c_tbs delta); t_validity := t_validity (c_tbs delta);
                      t_subject := t_subject (c_tbs delta); t_spki := t_spki (c_tbs delta); t_uids := t_uids base;
                      t_exts := merge_exts (t_exts base) (t_exts (c_tbs delta)) |};
          c_alg := so; c_sig := c_sig delta |} /\
    ((t_alg (c_tbs delta) = t_alg base /\ sa = t_alg (c_tbs c) /\ so = c_alg c) \/
     (t_alg (c_tbs delta) <> t_alg base /\ sa = {| g_oid := g_oid (t_alg (c_tbs delta)); g_par := None |} /\ so = sa)).
Proof.
  intros OK ND N H. pose proof (build_find _ _ _ _ _ _ _ _ OK N H) as F. unfold rebuild. rewrite F. cbn [bind].
  apply build_inv in H as (h & a & s & _ & _ & T & A & _).
  assert (E : filter (fun e => negb (String.eqb (x_id e) DCD)) (t_exts (c_tbs c)) = t_exts base).
  { change (others (t_exts (c_tbs c)) = t_exts base). rewrite T. cbn [set_talg set_texts t_exts]. rewrite others_app, others_id by exact N.
    cbn. apply app_nil_r. }
  rewrite E. cbn [prepare_dcd d_exts d_serial d_alg d_issuer d_validity d_subject d_spki d_sig].
  destruct (merged (t_exts base) (t_exts (c_tbs delta)) ND) as (r & R & RE). rewrite R. cbn [bind]. rewrite RE.
  assert (O : forall x y : bytes, or_else (if bytes_eqb x y then None else Some x) y = x).
  { intros x y. destruct (bytes_eqb x y) eqn:Q; cbn; [apply bytes_eqb_iff in Q; now subst | reflexivity]. }
  rewrite T. cbn [set_talg set_texts t_version t_uids t_issuer t_validity t_subject t_alg]. rewrite !O.
  destruct (compare_alg_id (t_alg (c_tbs delta)) (t_alg base)) eqn:CA; cbn [or_else].
  - apply compare_alg_iff in CA. do 2 eexists. split; [reflexivity|]. left. split; [exact CA|]. split; reflexivity.
  - do 2 eexists. split; [reflexivity|]. right. split; [|split; reflexivity]. intro Q. apply compare_alg_iff in Q. congruence.
Qed.

Theorem rebuilt_exact L delta base k pss crit hash c : cham_ok L -> NoDup (ids (t_exts base)) -> ~ In DCD (ids (t_exts base)) ->
  build_paired L delta base k pss crit hash = Ok c ->
  (rebuild L c = Ok delta <-> recoverable delta base c).
Proof.
  intros OK ND N H. destruct (build_rebuild _ _ _ _ _ _ _ _ OK ND N H) as (sa & so & -> & AL). split.
  - intro Q. assert (Q' : forall x y : cert, Ok x = Ok y -> x = y) by (intros; congruence). apply Q' in Q. clear Q'.
    pose proof (f_equal (fun x => t_version (c_tbs x)) Q) as Q1. pose proof (f_equal (fun x => t_uids (c_tbs x)) Q) as Q2.
    pose proof (f_equal (fun x => t_exts (c_tbs x)) Q) as Q3. pose proof (f_equal (fun x => t_alg (c_tbs x)) Q) as Q4.
    pose proof (f_equal c_alg Q) as Q5. cbn [c_tbs c_alg t_version t_uids t_exts t_alg] in Q1, Q2, Q3, Q4, Q5. clear Q. constructor.
    + now symmetry.
    + now symmetry.
    + now apply (merged_all _ _ ND).
    + destruct AL as [(A1 & A2 & A3) | (A1 & A2 & A3)].
      * left. split; [exact A1|]. split; congruence.
      * right. split; [exact A1|]. split; [rewrite <- Q4, A2; reflexivity | congruence].
  - intros [RV RU RX RA]. f_equal. apply (proj2 (merged_all _ (t_exts (c_tbs delta)) ND)) in RX. unfold merge_exts. rewrite RX.
    destruct delta as [[v se al i va su sp u xs] ca sg]. cbn in *. subst v u.
    destruct AL as [(A1 & -> & ->) | (A1 & A2 & ->)]; destruct RA as [(B1 & B2 & B3) | (B1 & B2 & B3)]; try (now elim B1); try (now elim A1).
    + now rewrite B2, B3 at 1.
    + subst sa. rewrite B3. destruct al as [o p]. cbn in *. now subst p.
Qed.

Theorem rebuilt_always L delta base k pss crit hash c : cham_ok L -> NoDup (ids (t_exts base)) -> ~ In DCD (ids (t_exts base)) ->
  build_paired L delta base k pss crit hash = Ok c ->
  exists r, rebuild L c = Ok r /\ t_serial (c_tbs r) = t_serial (c_tbs delta) /\ t_issuer (c_tbs r) = t_issuer (c_tbs delta) /\
    t_validity (c_tbs r) = t_validity (c_tbs delta) /\ t_subject (c_tbs r) = t_subject (c_tbs delta) /\
    t_spki (c_tbs r) = t_spki (c_tbs delta) /\ c_sig r = c_sig delta /\
    ids (t_exts (c_tbs r)) = ids (t_exts base) /\
    (forall e, In e (t_exts (c_tbs r)) ->
       get_extension (t_exts (c_tbs delta)) (x_id e) = Some e \/
       (~ In (x_id e) (ids (t_exts (c_tbs delta))) /\ In e (t_exts base))).
Proof.
  intros OK ND N H. destruct (build_rebuild _ _ _ _ _ _ _ _ OK ND N H) as (sa & so & R & _). eexists. split; [exact R|]. cbn.
  do 6 (split; [reflexivity|]). split.
  - unfold merge_exts, ids. rewrite map_map. apply map_ext. intro x.
    destruct (get_extension (t_exts (c_tbs delta)) (x_id x)) eqn:G; [now apply get_some in G | reflexivity].
  - intros e E. apply in_map_iff in E as (x & <- & X). destruct (get_extension (t_exts (c_tbs delta)) (x_id x)) eqn:G.
    + left. pose proof (proj1 (get_some _ _ _ G)) as GI. now rewrite GI.
    + right. split; [now apply get_none | exact X].
Qed.

(** ** Any certificate *)

Lemma find_iff L c d : find_dcd L c = Ok d <-> descriptor L c d.
Proof.
  unfold find_dcd, descriptor. split.
  - destruct (get_extension (t_exts (c_tbs c)) DCD) as [e|] eqn:G; [|discriminate].
    destruct (l_ddec L (x_val e)) as [[d' [|z r]]|] eqn:D; try discriminate. intro H. injection H as <-.
    apply get_split in G as (b & a & G1 & G2 & G3). exists e, b, a. split; [exact G1|]. split; [exact G2|]. split; [exact G3 | exact D].
  - intros (e & b & a & E & N & I & D).
    assert (G : get_extension (t_exts (c_tbs c)) DCD = Some e) by (apply get_split; exists b, a; split; [exact E | split; assumption]).
    rewrite G, D. reflexivity.
Qed.

Theorem rebuild_any L c r : rebuild L c = Ok r ->
  exists d, descriptor L c d /\
    t_version (c_tbs r) = t_version (c_tbs c) /\ t_uids (c_tbs r) = t_uids (c_tbs c) /\
    t_serial (c_tbs r) = d_serial d /\ t_spki (c_tbs r) = d_spki d /\ c_sig r = d_sig d /\
    given (d_alg d) (t_alg (c_tbs c)) (t_alg (c_tbs r)) /\ given (d_alg d) (c_alg c) (c_alg r) /\
    given (d_issuer d) (t_issuer (c_tbs c)) (t_issuer (c_tbs r)) /\
    given (d_validity d) (t_validity (c_tbs c)) (t_validity (c_tbs r)) /\
    given (d_subject d) (t_subject (c_tbs c)) (t_subject (c_tbs r)) /\
    ids (t_exts (c_tbs r)) = ids (others (t_exts (c_tbs c))) /\
    (NoDup (ids (others (t_exts (c_tbs c)))) -> NoDup (ids (d_exts d)) ->
     forall e, In e (t_exts (c_tbs r)) <->
       (In (x_id e) (ids (others (t_exts (c_tbs c)))) /\ In e (d_exts d)) \/
       (~ In (x_id e) (ids (d_exts d)) /\ In e (others (t_exts (c_tbs c))))).
Proof.
  unfold rebuild. intro H. apply bind_inv in H as (d & F & H). apply bind_inv in H as (xs & X & H). injection H as <-.
  exists d. split; [now apply find_iff|]. cbn [c_tbs c_alg c_sig t_version t_uids t_serial t_spki t_alg t_issuer t_validity t_subject t_exts].
  assert (G : forall A (o : option A) v, given o v (or_else o v)) by (intros A [x|] v; [now left | now right]).
  do 5 (split; [reflexivity|]). do 5 (split; [apply G|]). change (filter (fun e => negb (String.eqb (x_id e) DCD)) (t_exts (c_tbs c))) with (others (t_exts (c_tbs c))) in X.
  pose proof (replaces_ids _ _ _ X) as I. split; [exact I|]. intros ND ND2 e.
  rewrite (replaces_map _ _ _ ND X), in_map_iff.
  assert (LN : forall e, In e (d_exts d) -> last_of (x_id e) (d_exts d) = Some e).
  { clear -ND2. induction (d_exts d) as [|y l IH]; intros e E; [destruct E|]. destruct E as [-> | E]; cbn [ids map] in ND2; inversion ND2 as [|? ? NI ND']; subst; cbn [last_of].
    - rewrite (proj2 (last_of_none (x_id e) l) NI), String.eqb_refl. reflexivity.
    - now rewrite (IH ND' e E). }
  split.
  - intros (x & <- & Q). destruct (last_of (x_id x) (d_exts d)) as [y|] eqn:LO.
    + apply last_of_some in LO as [LO1 LO2]. left. split; [rewrite LO1; now apply in_map | exact LO2].
    + right. split; [now apply last_of_none | exact Q].
  - intros [[E1 E2] | [E1 E2]].
    + apply in_map_iff in E1 as (x & E1 & E3). exists x. rewrite E1, (LN e E2). split; [reflexivity | exact E3].
    + exists e. rewrite (proj2 (last_of_none _ _) E1). split; [reflexivity | exact E2].
Qed.

Theorem rebuild_ok L c : is_ok (rebuild L c) = true <->
  exists d, descriptor L c d /\ forall e, In e (d_exts d) -> In (x_id e) (ids (others (t_exts (c_tbs c)))).
Proof.
  unfold rebuild. split.
  - destruct (find_dcd L c) as [d|] eqn:F; [|discriminate]. cbn [bind]. intro H. exists d. split; [now apply find_iff|].
    apply replaces_ok. unfold others. destruct (replace_exts _ (d_exts d)); [reflexivity | discriminate H].
  - intros (d & F & H). apply find_iff in F. rewrite F. cbn [bind]. apply replaces_ok in H. unfold others in H.
    destruct (replace_exts _ (d_exts d)); [reflexivity | discriminate H].
Qed.

Theorem delta_key_exact L c k : delta_public_key L c = Ok k <-> exists d, descriptor L c d /\ d_spki d = k.
Proof.
  unfold delta_public_key. split.
  - intro H. apply bind_inv in H as (d & F & H). injection H as <-. exists d. split; [now apply find_iff | reflexivity].
  - intros (d & F & <-). apply find_iff in F. now rewrite F.
Qed.

Theorem delta_key_built L delta base k pss crit hash c : cham_ok L -> ~ In DCD (ids (t_exts base)) ->
  build_paired L delta base k pss crit hash = Ok c -> delta_public_key L c = Ok (t_spki (c_tbs delta)).
Proof. intros OK N H. unfold delta_public_key. now rewrite (build_find _ _ _ _ _ _ _ _ OK N H). Qed.

(** ** Validation of the descriptor *)

Lemma last_extension_of l o : last_extension l o = last_of o l.
Proof. induction l as [|e r IH]; cbn [last_extension last_of]; [reflexivity|]. now rewrite IH. Qed.

Theorem validate_exact dl base : NoDup (ids base) ->
  (validate_dcd_exts dl base = Ok tt <->
   forall e, In e dl -> x_id e <> DCD /\
     exists b, In b base /\ x_id b = x_id e /\ (x_crit e <> x_crit b \/ x_val e <> x_val b)).
Proof.
  intro ND. assert (LN : forall b, In b base -> last_of (x_id b) base = Some b).
  { induction base as [|y l IH]; intros b B; [destruct B|]. destruct B as [-> | B]; cbn [ids map] in ND; inversion ND as [|? ? NI ND']; subst; cbn [last_of].
    - rewrite (proj2 (last_of_none (x_id b) l) NI), String.eqb_refl. reflexivity.
    - now rewrite (IH ND' b B). }
  induction dl as [|e r IH]; cbn [validate_dcd_exts]; [split; [intros _ e [] | reflexivity]|].
  rewrite last_extension_of. split.
  - intro H. apply bind_inv in H as (u1 & H1 & H). apply bind_inv in H as (u2 & H2 & H). apply bind_inv in H as (u3 & H3 & H).
    pose proof (proj1 IH H) as H'. intros x [<- | X]; [|now apply H'].
    assert (D : x_id e <> DCD).
    { intro Q. rewrite Q, String.eqb_refl in H3. discriminate H3. }
    split; [exact D|]. destruct (last_of (x_id e) base) as [b|] eqn:LO.
    + apply last_of_some in LO as [L1 L2]. exists b. split; [exact L2|]. split; [exact L1|].
      destruct (Bool.eqb (x_crit e) (x_crit b)) eqn:C; cbn in H1.
      * right. intro V. apply bytes_eqb_iff in V. rewrite V in H1. discriminate H1.
      * left. intro V. rewrite V, Bool.eqb_reflx in C. discriminate C.
    + apply String.eqb_neq in D. rewrite D in H2. discriminate H2.
  - intro H. destruct (H e (or_introl eq_refl)) as (D & b & B & I & V).
    rewrite <- I, (LN b B). assert (G : Bool.eqb (x_crit e) (x_crit b) && bytes_eqb (x_val e) (x_val b) = false).
    { destruct (Bool.eqb (x_crit e) (x_crit b)) eqn:C; [|reflexivity]. destruct (bytes_eqb (x_val e) (x_val b)) eqn:W; [|reflexivity].
      apply Bool.eqb_prop in C. apply bytes_eqb_iff in W. now destruct V. }
    rewrite G. cbn [negb guard bind]. rewrite I. apply String.eqb_neq in D. rewrite D. cbn [negb guard bind]. apply IH.
    intros x X. apply H. now right.
Qed.

Theorem built_validates L delta base k pss crit hash c : cham_ok L -> NoDup (ids (t_exts base)) -> ~ In DCD (ids (t_exts base)) ->
  build_paired L delta base k pss crit hash = Ok c -> validate_dcd_cert L c (t_exts base) = Ok tt.
Proof.
  intros OK ND N H. pose proof (build_find _ _ _ _ _ _ _ _ OK N H) as F. unfold validate_dcd_cert. unfold find_dcd in F.
  destruct (get_extension (t_exts (c_tbs c)) DCD) as [e|]; [|discriminate F].
  destruct (l_ddec L (x_val e)) as [[d [|z r]]|]; try discriminate F. injection F as ->. apply validate_exact; [exact ND|].
  cbn [prepare_dcd d_exts]. intros x X. apply clean_in in X as (b & B & G & V). apply get_some in G as [G _]. split.
  - intro Q. apply N. rewrite <- Q, G. now apply in_map.
  - exists b. split; [exact B|]. split; [now symmetry | exact V].
Qed.

Theorem validated_rebuilds L c d : NoDup (ids (others (t_exts (c_tbs c)))) -> descriptor L c d ->
  validate_dcd_cert L c (others (t_exts (c_tbs c))) = Ok tt -> is_ok (rebuild L c) = true.
Proof.
  intros ND D H. apply rebuild_ok. exists d. split; [exact D|]. apply find_iff in D. unfold validate_dcd_cert in H. unfold find_dcd in D.
  destruct (get_extension (t_exts (c_tbs c)) DCD) as [e|]; [|discriminate D].
  destruct (l_ddec L (x_val e)) as [[d' [|z r]]|]; try discriminate D. injection D as ->.
  intros x X. apply (proj1 (validate_exact _ _ ND) H) in X as (_ & b & B & I & _). rewrite <- I. now apply in_map.
Qed.
