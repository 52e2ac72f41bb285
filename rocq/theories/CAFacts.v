(** Reasoning principles for the state-and-exception monad and for the
    dictionaries of CAModel. *)
From Coq Require Export Relations.Relation_Operators Relations.Operators_Properties.
From Verif Require Export PreludeFacts CAModel.
Local Open Scope Z_scope.

Section MonadFacts.
Context {A B : Type}.

Lemma bindM_ok (p : M A) (k : A -> M B) s s' b :
  bindM p k s = (s', ROk b) <-> exists a s1, p s = (s1, ROk a) /\ k a s1 = (s', ROk b).
Proof.
  unfold bindM. destruct (p s) as [s1 [a | e m]] eqn:E; split.
  - intros Hk. exists a, s1. auto.
  - intros (a' & s2 & E' & Hk). inversion E'; subst. exact Hk.
  - discriminate.
  - intros (a' & s2 & E' & Hk). discriminate.
Qed.

Lemma bindM_err (p : M A) (k : A -> M B) s s' e m :
  bindM p k s = (s', RErr e m) <->
  p s = (s', RErr e m) \/ exists a s1, p s = (s1, ROk a) /\ k a s1 = (s', RErr e m).
Proof.
  unfold bindM. destruct (p s) as [s1 [a | e1 m1]] eqn:E; split.
  - intros Hk. right. exists a, s1. auto.
  - intros [? | (a' & s2 & E' & Hk)]; [discriminate |]. inversion E'; subst. exact Hk.
  - intros Hk. left. inversion Hk; subst; reflexivity.
  - intros [Hk | (a' & s2 & E' & Hk)]; [| discriminate]. inversion Hk; subst; reflexivity.
Qed.

Lemma ret_ok (a b : A) s s' : ret a s = (s', ROk b) <-> s' = s /\ b = a.
Proof. unfold ret. split; [intros E; inversion E; auto | intros [-> ->]; reflexivity]. Qed.
Lemma ret_err (a : A) s s' e m : ret a s = (s', RErr e m) <-> False.
Proof. unfold ret. split; [discriminate | tauto]. Qed.
Lemma raise_ok (m : msg) e (b : A) s s' : raise m e s = (s', ROk b) <-> False.
Proof. unfold raise. split; [discriminate | tauto]. Qed.
Lemma raise_err (m m' : msg) e e' s s' :
  @raise A m e s = (s', RErr e' m') <-> s' = s /\ e' = e /\ m' = m.
Proof. unfold raise. split; [intros E; inversion E; auto | intros (-> & -> & ->); reflexivity]. Qed.
Lemma lift_ok (m : msg) (r : result A) a s s' :
  lift m r s = (s', ROk a) <-> s' = s /\ r = Ok a.
Proof.
  destruct r; cbn; unfold ret, raise; split; try (intros E; inversion E; auto; fail).
  - intros [-> E]; inversion E; reflexivity.
  - intros [_ E]; discriminate.
Qed.
Lemma lift_err (m m' : msg) (r : result A) e s s' :
  lift m r s = (s', RErr e m') <-> s' = s /\ m' = m /\ r = Err e.
Proof.
  destruct r; cbn; unfold ret, raise; split; try (intros E; inversion E; auto; fail).
  - intros (-> & _ & E); discriminate.
  - intros (-> & -> & E); inversion E; reflexivity.
Qed.
Lemma catch_ok (p : M A) h s s' a :
  catch p h s = (s', ROk a) <->
  p s = (s', ROk a) \/ exists s1 e m q, p s = (s1, RErr e m) /\ h e m = Some q /\ q s1 = (s', ROk a).
Proof.
  unfold catch. destruct (p s) as [s1 [x | e m]] eqn:E; split.
  - intros Hk; left; inversion Hk; auto.
  - intros [Hk | (s2 & e & m & q & ? & _)]; [inversion Hk; auto | discriminate].
  - intros Hk. right. destruct (h e m) eqn:Eh; [| discriminate].
    exists s1, e, m. eexists. eauto.
  - intros [Hk | (s2 & e' & m' & q & Ei & Eh & Eq)]; [discriminate |].
    inversion Ei; subst. rewrite Eh. exact Eq.
Qed.
Lemma catch_err (p : M A) h s s' e m :
  catch p h s = (s', RErr e m) <->
  exists s1 e1 m1, p s = (s1, RErr e1 m1) /\
    ((h e1 m1 = None /\ s1 = s' /\ e1 = e /\ m1 = m)
     \/ exists q, h e1 m1 = Some q /\ q s1 = (s', RErr e m)).
Proof.
  unfold catch. destruct (p s) as [s1 [x | e1 m1]] eqn:E; split.
  - discriminate.
  - intros (? & ? & ? & ? & _); discriminate.
  - intros Hk. exists s1, e1, m1. split; [reflexivity |].
    destruct (h e1 m1); [right; eauto | left; inversion Hk; auto].
  - intros (s2 & e2 & m2 & Ei & [(En & -> & -> & ->) | (q & Eq & Hq)]); inversion Ei; subst.
    + rewrite En; reflexivity.
    + rewrite Eq; exact Hq.
Qed.
End MonadFacts.

Lemma get_ok s s' x : get s = (s', ROk x) <-> s' = s /\ x = s.
Proof. unfold get. split; [intros E; inversion E; auto | intros [-> ->]; reflexivity]. Qed.
Lemma get_err s s' e m : get s = (s', RErr e m) <-> False.
Proof. unfold get. split; [discriminate | tauto]. Qed.
Lemma modify_ok f s s' x : modify f s = (s', ROk x) <-> s' = f s.
Proof. unfold modify. destruct x. split; [intros E; inversion E; auto | intros ->; reflexivity]. Qed.
Lemma modify_err f s s' e m : modify f s = (s', RErr e m) <-> False.
Proof. unfold modify. split; [discriminate | tauto]. Qed.
Lemma lift_db_ok m f s s' x : lift_db m f s = (s', ROk x) <-> exists d, f (s_db s) = Ok d /\ s' = set_db s d.
Proof.
  unfold lift_db. destruct x. destruct (f (s_db s)); split.
  - intros E; inversion E; eauto.
  - intros (d & E & ->); inversion E; reflexivity.
  - discriminate.
  - intros (d & E & _); discriminate.
Qed.
Lemma lift_db_err m f s s' e m' :
  lift_db m f s = (s', RErr e m') <-> s' = s /\ m' = m /\ f (s_db s) = Err e.
Proof.
  unfold lift_db. destruct (f (s_db s)); split.
  - discriminate.
  - intros (_ & _ & E); discriminate.
  - intros E; inversion E; auto.
  - intros (-> & -> & E); inversion E; reflexivity.
Qed.
Lemma octets_ok m o s s' b : octets m o s = (s', ROk b) <-> s' = s /\ o = Some b.
Proof.
  destruct o; cbn; unfold ret, raise; split; try (intros E; inversion E; auto; fail).
  - intros [-> E]; inversion E; reflexivity.
  - intros [_ E]; discriminate.
Qed.
Lemma octets_err m m' o e s s' :
  octets m o s = (s', RErr e m') <-> s' = s /\ m' = m /\ o = None /\ e = EPyAsn1.
Proof.
  destruct o; cbn; unfold ret, raise; split; try (intros E; inversion E; auto; fail).
  - intros (_ & _ & E & _); discriminate.
  - intros (-> & -> & _ & ->); reflexivity.
Qed.

(** [minv Hyp]: turn an equation about a computation into equations about its parts. *)
Ltac minv1 :=
  match goal with
  | E : bindM _ _ _ = (_, ROk _) |- _ => apply bindM_ok in E; destruct E as (? & ? & ? & E)
  | E : ret _ _ = (_, ROk _) |- _ => apply ret_ok in E; destruct E as [? ?]; subst
  | E : ret _ _ = (_, RErr _ _) |- _ => apply ret_err in E; destruct E
  | E : raise _ _ _ = (_, ROk _) |- _ => apply raise_ok in E; destruct E
  | E : lift _ _ _ = (_, ROk _) |- _ => apply lift_ok in E; destruct E as [? E]; subst
  | E : octets _ _ _ = (_, ROk _) |- _ => apply octets_ok in E; destruct E as [? E]; subst
  | E : get _ = (_, ROk _) |- _ => apply get_ok in E; destruct E as [? ?]; subst
  | E : get _ = (_, RErr _ _) |- _ => apply get_err in E; destruct E
  | E : modify _ _ = (_, ROk _) |- _ => apply modify_ok in E; subst
  | E : modify _ _ = (_, RErr _ _) |- _ => apply modify_err in E; destruct E
  | E : lift_db _ _ _ = (_, ROk _) |- _ => apply lift_db_ok in E; destruct E as (? & E & ?); subst
  | u : unit |- _ => destruct u
  end.
Ltac minv := repeat minv1.

(** ** Preservation of a reflexive and transitive relation *)
Section Pres.
Variable R : ca -> ca -> Prop.
Hypothesis Rrefl : forall s, R s s.
Hypothesis Rtrans : forall a b c, R a b -> R b c -> R a c.

Definition pres {A} (p : M A) : Prop := forall s, R s (fst (p s)).

Lemma pres_ret {A} (a : A) : pres (ret a). Proof. intros s; apply Rrefl. Qed.
Lemma pres_raise {A} m e : pres (@raise A m e). Proof. intros s; apply Rrefl. Qed.
Lemma pres_get : pres get. Proof. intros s; apply Rrefl. Qed.
Lemma pres_lift {A} m (r : result A) : pres (lift m r). Proof. destruct r; intros s; apply Rrefl. Qed.
Lemma pres_octets m o : pres (octets m o). Proof. destruct o; intros s; apply Rrefl. Qed.
Lemma pres_bind {A B} (p : M A) (k : A -> M B) : pres p -> (forall a, pres (k a)) -> pres (bindM p k).
Proof.
  intros Hp Hk s. unfold bindM. specialize (Hp s). destruct (p s) as [s1 [a | e m]]; [| exact Hp].
  eapply Rtrans; [exact Hp | apply Hk].
Qed.
Lemma pres_catch {A} (p : M A) h : pres p -> (forall e m q, h e m = Some q -> pres q) -> pres (catch p h).
Proof.
  intros Hp Hh s. unfold catch. specialize (Hp s). destruct (p s) as [s1 [a | e m]]; [exact Hp |].
  destruct (h e m) eqn:E; [| exact Hp]. eapply Rtrans; [exact Hp | apply (Hh e m _ E)].
Qed.
(** like [pres_bind], after reading the state *)
Lemma pres_get_bind {B} (k : ca -> M B) : (forall s, R s (fst (k s s))) -> pres (bindM get k).
Proof. intros Hk s. unfold bindM, get. apply Hk. Qed.
End Pres.

(** ** Dictionaries *)
Section DictFacts.
Context {K V : Type} (eqb : K -> K -> bool).
Hypothesis eqb_spec : forall a b, eqb a b = true <-> a = b.

Lemma deqb_refl k : eqb k k = true. Proof. now apply eqb_spec. Qed.
Lemma deqb_neq a b : a <> b -> eqb a b = false.
Proof. intros N. destruct (eqb a b) eqn:E; [apply eqb_spec in E; contradiction | reflexivity]. Qed.

Lemma dget_dset_same k (v : V) d : dget eqb k (dset eqb k v d) = Some v.
Proof.
  induction d as [| [k' v'] d IH]; cbn; [now rewrite deqb_refl |].
  destruct (eqb k k') eqn:E; cbn; [now rewrite E | now rewrite E].
Qed.
Lemma dget_dset_other k k' (v : V) d : k <> k' -> dget eqb k (dset eqb k' v d) = dget eqb k d.
Proof.
  intros N. induction d as [| [k2 v2] d IH]; cbn.
  - now rewrite (deqb_neq _ _ N).
  - destruct (eqb k' k2) eqn:E; cbn.
    + apply eqb_spec in E; subst k2. now rewrite (deqb_neq _ _ N).
    + now rewrite IH.
Qed.
Lemma dget_ddel_other k k' (d : list (K * V)) : k <> k' -> dget eqb k (ddel eqb k' d) = dget eqb k d.
Proof.
  intros N. induction d as [| [k2 v2] d IH]; cbn; [reflexivity |].
  destruct (eqb k' k2) eqn:E; cbn.
  - apply eqb_spec in E; subst k2. now rewrite (deqb_neq _ _ N).
  - now rewrite IH.
Qed.
Lemma dget_none_notin k (d : list (K * V)) : dget eqb k d = None <-> ~ In k (map fst d).
Proof.
  induction d as [| [k2 v2] d IH]; cbn; [tauto |].
  destruct (eqb k k2) eqn:E.
  - apply eqb_spec in E; subst. split; [discriminate | intros N; exfalso; apply N; now left].
  - rewrite IH. split.
    + intros N [-> | I]; [now rewrite deqb_refl in E | contradiction].
    + intros N I. apply N. now right.
Qed.
Lemma dget_some_in k v (d : list (K * V)) : dget eqb k d = Some v -> In (k, v) d.
Proof.
  induction d as [| [k2 v2] d IH]; cbn; [discriminate |].
  destruct (eqb k k2) eqn:E; intros Hd.
  - apply eqb_spec in E; subst. inversion Hd; auto.
  - auto.
Qed.
Lemma dset_keys k (v : V) d : forall x, In x (map fst (dset eqb k v d)) <-> x = k \/ In x (map fst d).
Proof.
  induction d as [| [k2 v2] d IH]; cbn; intros x.
  - intuition auto.
  - destruct (eqb k k2) eqn:E; cbn.
    + apply eqb_spec in E; subst. intuition auto.
    + rewrite IH. intuition auto.
Qed.
Lemma ddel_keys_incl k (d : list (K * V)) : forall x, In x (map fst (ddel eqb k d)) -> In x (map fst d).
Proof.
  induction d as [| [k2 v2] d IH]; cbn; intros x; [tauto |].
  destruct (eqb k k2); cbn; intros I; [auto | destruct I; [auto | right; auto]].
Qed.
Lemma dset_nodup k (v : V) d : NoDup (map fst d) -> NoDup (map fst (dset eqb k v d)).
Proof.
  induction d as [| [k2 v2] d IH]; cbn; intros N; [constructor; [tauto | constructor] |].
  inversion N; subst. destruct (eqb k k2) eqn:E; cbn; [assumption |].
  constructor; [| auto]. rewrite dset_keys. intros [-> | I]; [now rewrite deqb_refl in E | contradiction].
Qed.
Lemma ddel_nodup k (d : list (K * V)) : NoDup (map fst d) -> NoDup (map fst (ddel eqb k d)).
Proof.
  induction d as [| [k2 v2] d IH]; cbn; intros N; [constructor |].
  inversion N; subst. destruct (eqb k k2) eqn:E; cbn; [assumption |].
  constructor; [| auto]. intros I. apply ddel_keys_incl in I. contradiction.
Qed.
Lemma dget_ddel_same k (d : list (K * V)) : NoDup (map fst d) -> dget eqb k (ddel eqb k d) = None.
Proof.
  induction d as [| [k2 v2] d IH]; cbn; intros N; [reflexivity |].
  inversion N; subst. destruct (eqb k k2) eqn:E; cbn.
  - apply eqb_spec in E; subst. now apply dget_none_notin.
  - rewrite E. auto.
Qed.
Lemma dget_ddel_none k k' (d : list (K * V)) : dget eqb k d = None -> dget eqb k (ddel eqb k' d) = None.
Proof.
  rewrite !dget_none_notin. intros N I. apply ddel_keys_incl in I. contradiction.
Qed.
End DictFacts.

Lemma pair_eqb_spec a b : pair_eqb a b = true <-> a = b.
Proof.
  destruct a, b; unfold pair_eqb; cbn. rewrite Bool.andb_true_iff, !bytes_eqb_eq.
  split; [intros [-> ->]; reflexivity | intros E; inversion E; auto].
Qed.
Lemma chal_eqb_spec a b : chal_eqb a b = true <-> a = b.
Proof.
  destruct a, b; unfold chal_eqb; cbn. rewrite Bool.andb_true_iff, bytes_eqb_eq, Z.eqb_eq.
  split; [intros [-> ->]; reflexivity | intros E; inversion E; auto].
Qed.

Lemma ptype_eqb_eq a b : ptype_eqb a b = true <-> a = b.
Proof. destruct a, b; cbn; split; try discriminate; auto. Qed.
Lemma body_eqb_eq a b : body_eqb a b = true <-> a = b.
Proof. destruct a, b; cbn; split; try discriminate; auto. Qed.
Lemma body_eqb_refl a : body_eqb a a = true.
Proof. now apply body_eqb_eq. Qed.
Lemma body_in_In b l : body_in b l = true <-> In b l.
Proof.
  induction l as [| x l IH]; cbn; [split; [discriminate | tauto] |].
  rewrite Bool.orb_true_iff, body_eqb_eq, IH. intuition auto.
Qed.
