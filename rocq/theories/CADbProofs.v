From Verif Require Import PreludeFacts.
From Verif Require Export CADbSpec.
Local Open Scope Z_scope.

Lemma state_eqb_eq a b : state_eqb a b = true <-> a = b.
Proof. destruct a, b; simpl; split; congruence. Qed.
Lemma state_eqb_refl a : state_eqb a a = true.
Proof. apply state_eqb_eq; reflexivity. Qed.
Lemma state_eqb_neq a b : state_eqb a b = false <-> a <> b.
Proof. destruct a, b; simpl; split; congruence. Qed.
Lemma body_eqb_eq a b : body_eqb a b = true <-> a = b.
Proof. destruct a, b; simpl; split; congruence. Qed.

Set Default Proof Using "Type".
Section P.
Variable H : bytes -> bytes.
Notation db_step := (db_step H). Notation db_run := (db_run H). Notation db_call := (db_call H).

(** *** one entry *)
Lemma change_entry_identity e s r u now e' :
  change_entry H e s r u now = Ok e' -> same_identity e e' /\ e_state e' = s.
Proof.
  unfold change_entry, process_rev_cert, process_update_cert, same_identity.
  destruct s; simpl; try discriminate.
  all: repeat match goal with
       | |- context [if ?b then _ else _] => destruct b
       | |- context [match ?x with None => _ | Some _ => _ end] => destruct x
       end; try discriminate; intro E; injection E as <-; cbn; auto.
Qed.

Lemma change_entry_edge e s r u now e' :
  change_entry H e s r u now = Ok e' -> e_state e <> UNKNOWN ->
  edge (e_state e) (e_state e').
Proof.
  intros Hc Hu. pose proof (change_entry_identity _ _ _ _ _ _ Hc) as [_ Hs]. rewrite Hs.
  unfold change_entry in Hc. destruct s; simpl in Hc; try discriminate.
  - destruct (state_eqb (e_state e) NOT_CONFIRMED) eqn:E; [|discriminate].
    apply state_eqb_eq in E. rewrite E. constructor.
  - destruct (state_eqb (e_state e) REVIVED) eqn:E1; simpl in Hc.
    + apply state_eqb_eq in E1; rewrite E1; constructor.
    + destruct (state_eqb (e_state e) CONFIRMED) eqn:E2; [|discriminate].
      apply state_eqb_eq in E2; rewrite E2; constructor.
  - constructor; exact Hu.
  - constructor; exact Hu.
  - destruct (state_eqb (e_state e) REVOKED) eqn:E; [|discriminate].
    apply state_eqb_eq in E. rewrite E. constructor.
Qed.

(** *** the loop over entries *)
Lemma change_in_split l dig s r u now l' :
  change_in H l dig s r u now = Ok l' ->
  exists a e b e', l = a ++ e :: b /\ l' = a ++ e' :: b /\
    e_digest e = dig /\ change_entry H e s r u now = Ok e' /\
    (forall x, In x a -> e_digest x <> dig).
Proof.
  revert l'; induction l as [|e l IH]; intros l'; simpl; [discriminate|].
  destruct (bytes_eqb_spec dig (e_digest e)) as [Ed|Ed].
  - intro Hb. apply bind_ok in Hb as (e' & He & E). injection E as <-.
    exists [], e, l, e'. repeat split; auto; intros x [].
  - intro Hb. apply bind_ok in Hb as (l1 & Hl & E). injection E as <-.
    destruct (IH _ Hl) as (a & e0 & b & e0' & -> & -> & Hd & Hc & Hn).
    exists (e :: a), e0, b, e0'. repeat split; auto.
    intros x [<-|Hx]; [congruence|auto].
Qed.

Lemma get_by_digest_app a b dig :
  get_by_digest (a ++ b) dig =
  match get_by_digest a dig with Some e => Some e | None => get_by_digest b dig end.
Proof.
  unfold get_by_digest. induction a as [|e a IH]; simpl; [reflexivity|].
  destruct (bytes_eqb dig (e_digest e)); [reflexivity|exact IH].
Qed.

Lemma get_by_digest_none a dig :
  get_by_digest a dig = None <-> forall x, In x a -> e_digest x <> dig.
Proof.
  unfold get_by_digest. induction a as [|e a IH]; simpl.
  - split; [intros _ x []|reflexivity].
  - destruct (bytes_eqb_spec dig (e_digest e)) as [E|E].
    + split; [discriminate|]. intro Hx. exfalso. apply (Hx e); auto.
    + rewrite IH. split.
      * intros Hx x [<-|Hi]; [congruence|auto].
      * intros Hx x Hi. apply Hx; auto.
Qed.

Lemma get_by_digest_some l dig e :
  get_by_digest l dig = Some e ->
  exists a b, l = a ++ e :: b /\ e_digest e = dig /\ get_by_digest a dig = None.
Proof.
  unfold get_by_digest. induction l as [|x l IH]; simpl; [discriminate|].
  destruct (bytes_eqb_spec dig (e_digest x)) as [E|E].
  - intro Hx; injection Hx as <-. exists [], l. auto.
  - intro Hx. destruct (IH Hx) as (a & b & -> & Hd & Hn).
    exists (x :: a), b. repeat split; auto. simpl.
    destruct (bytes_eqb_spec dig (e_digest x)); [contradiction|exact Hn].
Qed.

Lemma change_in_get l dig s r u now l' :
  change_in H l dig s r u now = Ok l' ->
  exists e e', get_by_digest l dig = Some e /\ get_by_digest l' dig = Some e' /\
    change_entry H e s r u now = Ok e' /\
    (forall d2, d2 <> dig -> get_by_digest l' d2 = get_by_digest l d2).
Proof.
  intro Hc. destruct (change_in_split _ _ _ _ _ _ _ Hc) as (a & e & b & e' & -> & -> & Hd & He & Hn).
  exists e, e'.
  destruct (change_entry_identity _ _ _ _ _ _ He) as [(Hi1 & Hi2 & Hi3) _].
  apply get_by_digest_none in Hn.
  rewrite !get_by_digest_app, Hn. cbn. rewrite Hd, bytes_eqb_refl.
  rewrite <- Hi2, Hd, bytes_eqb_refl. repeat split; auto.
  intros d2 Hd2. rewrite !get_by_digest_app. destruct (get_by_digest a d2); [reflexivity|].
  cbn. rewrite <- Hi2, Hd.
  destruct (bytes_eqb_spec d2 dig); [contradiction|reflexivity].
Qed.

Lemma change_in_total l dig s r u now :
  match get_by_digest l dig with
  | None => change_in H l dig s r u now = Err EValueError
  | Some e => match change_entry H e s r u now with
              | Err x => change_in H l dig s r u now = Err x
              | Ok _ => exists l', change_in H l dig s r u now = Ok l'
              end
  end.
Proof.
  induction l as [|e l IH]; simpl; [reflexivity|].
  unfold get_by_digest in *. simpl.
  destruct (bytes_eqb dig (e_digest e)).
  - destruct (change_entry H e s r u now); simpl; eauto.
  - destruct (find _ l) as [e0|].
    + destruct (change_entry H e0 s r u now).
      * destruct IH as [l' ->]. simpl. eauto.
      * rewrite IH. reflexivity.
    + rewrite IH. reflexivity.
Qed.

Local Arguments get_by_digest : simpl never.
Lemma gbd_one e dig : get_by_digest [e] dig = if bytes_eqb dig (e_digest e) then Some e else None.
Proof. reflexivity. Qed.

(** *** states *)
Lemma change_ok_shape d c s r u now d' :
  change_cert_state H d c s r u now = Ok d' ->
  exists l', change_in H (db_certs d) (H c) s r u now = Ok l' /\ d' = with_certs d l' /\
             (s = CONFIRMED \/ s = UPDATED \/ s = REVOKED \/ s = REVIVED \/ s = UPDATED_BUT_NOT_CONFIRMED).
Proof.
  unfold change_cert_state. destruct s; try discriminate;
    intro E; apply bind_ok in E as (l & Hl & E); injection E as <-; exists l; auto 10.
Qed.

Lemma add_ok_shape d c s now d' :
  add_cert H d c s now = Ok d' ->
  (s = NOT_CONFIRMED \/ s = CONFIRMED) /\
  exists e, d' = with_certs d (db_certs d ++ [e]) /\ e_state e = s /\ e_cert e = c /\ e_digest e = H c.
Proof.
  unfold add_cert. destruct s; try discriminate; intro E; injection E as <-;
    (split; [auto|]); eexists; cbn; repeat split; reflexivity.
Qed.

Definition no_unknown (d : cert_db) : Prop := forall e, In e (db_certs d) -> e_state e <> UNKNOWN.

Lemma no_unknown_step d o : no_unknown d -> no_unknown (db_step d o).
Proof.
  unfold no_unknown, CADbSpec.db_step. intros Hd.
  destruct (db_call d o) as [d'|] eqn:E; [|exact Hd].
  destruct o as [c s now|c s r u now]; simpl in E.
  - apply add_ok_shape in E as (Hs & e & -> & He & _). cbn.
    intros x Hx. apply in_app_or in Hx as [Hx|[<-|[]]]; [auto|].
    rewrite He. destruct Hs as [Hs|Hs]; rewrite Hs; congruence.
  - apply change_ok_shape in E as (l' & E & -> & Hs). cbn.
    apply change_in_split in E as (a & e & b & e' & Hl & -> & _ & He & _).
    apply change_entry_identity in He as [_ He].
    intros x Hx. apply in_app_or in Hx as [Hx|[<-|Hx]].
    + apply Hd. rewrite Hl. apply in_or_app; auto.
    + rewrite He. intuition congruence.
    + apply Hd. rewrite Hl. apply in_or_app. simpl; auto.
Qed.

Lemma no_unknown_run d ops : no_unknown d -> no_unknown (db_run d ops).
Proof. revert d; induction ops as [|o ops IH]; simpl; intros d Hd; auto using no_unknown_step. Qed.

Lemma no_unknown_init : no_unknown db_init.
Proof. intros e []. Qed.

Lemma get_state_unknown d c : no_unknown d ->
  (get_cert_state H d c = UNKNOWN <-> get_cert H d c = None).
Proof.
  intro Hd. unfold get_cert_state. destruct (get_cert H d c) eqn:E; split; try congruence.
  intro Hu. exfalso. unfold get_cert in E. apply get_by_digest_some in E as (a & b & El & _).
  apply (Hd d0); [rewrite El; apply in_or_app; simpl; auto|exact Hu].
Qed.

Lemma step_lifecycle d o c :
  no_unknown d ->
  get_cert_state H (db_step d o) c = get_cert_state H d c \/
  (edge (get_cert_state H d c) (get_cert_state H (db_step d o) c) /\
   is_ok (db_call d o) = true /\ H (op_cert o) = H c /\
   op_target o = get_cert_state H (db_step d o) c).
Proof.
  intro Hd. unfold CADbSpec.db_step.
  destruct (db_call d o) as [d'|] eqn:E; [|left; reflexivity].
  destruct o as [c0 s now|c0 s r u now]; simpl in E |- *.
  - apply add_ok_shape in E as (Hs & e & -> & He & Hc & Hdig).
    unfold get_cert_state, get_cert. cbn. rewrite get_by_digest_app.
    destruct (get_by_digest (db_certs d) (H c)) eqn:G; [left; reflexivity|].
    rewrite gbd_one, Hdig. destruct (bytes_eqb_spec (H c) (H c0)) as [Eq|Ne]; [|left; reflexivity].
    right. rewrite He. repeat split; auto. destruct Hs as [Hs|Hs]; rewrite Hs; constructor.
  - apply change_ok_shape in E as (l' & E & -> & Hs).
    apply change_in_get in E as (e & e' & G & G' & He & Hoth).
    unfold get_cert_state, get_cert. cbn.
    destruct (bytes_eqb_spec (H c) (H c0)) as [Eq|Ne].
    + rewrite Eq, G, G'. right. repeat split; auto.
      * eapply change_entry_edge; eauto. apply Hd.
        apply get_by_digest_some in G as (a & b & -> & _). apply in_or_app; simpl; auto.
      * symmetry. eapply change_entry_identity; eauto.
    + rewrite Hoth by exact Ne. left; reflexivity.
Qed.

Lemma run_lifecycle ops o c :
  let d := db_run db_init ops in
  let d' := db_step d o in
  get_cert_state H d' c = get_cert_state H d c \/
  (edge (get_cert_state H d c) (get_cert_state H d' c) /\
   is_ok (db_call d o) = true /\ H (op_cert o) = H c /\
   op_target o = get_cert_state H d' c).
Proof. intros d d'. apply step_lifecycle. apply no_unknown_run, no_unknown_init. Qed.

(** Exactly which changes are accepted. *)
Definition accepts (old new : cert_state) (pending_has_digest has_upd : bool) : bool :=
  match new with
  | CONFIRMED => state_eqb old NOT_CONFIRMED
  | REVOKED => state_eqb old CONFIRMED || state_eqb old REVIVED
  | REVIVED => state_eqb old REVOKED
  | UPDATED => has_upd || (state_eqb old UPDATED_BUT_NOT_CONFIRMED && pending_has_digest)
  | UPDATED_BUT_NOT_CONFIRMED => has_upd
  | _ => false
  end.

Lemma change_accept_iff d c s r u now :
  is_ok (change_cert_state H d c s r u now) =
  match get_cert H d c with
  | None => false
  | Some e => accepts (e_state e) s (match e_upd_digest e with Some _ => true | None => false end)
                      (match u with Some _ => true | None => false end)
  end.
Proof.
  unfold get_cert.
  pose proof (change_in_total (db_certs d) (H c) s r u now) as Ht.
  assert (Hok : is_ok (change_cert_state H d c s r u now) =
                match s with NOT_CONFIRMED | UNKNOWN => false
                | _ => is_ok (change_in H (db_certs d) (H c) s r u now) end).
  { unfold change_cert_state. destruct s; try reflexivity;
      destruct (change_in H (db_certs d) (H c) _ r u now); reflexivity. }
  rewrite Hok. clear Hok.
  destruct (get_by_digest (db_certs d) (H c)) as [e|].
  - assert (Hi : is_ok (change_in H (db_certs d) (H c) s r u now) = is_ok (change_entry H e s r u now)).
    { destruct (change_entry H e s r u now); [destruct Ht as [l' ->]|rewrite Ht]; reflexivity. }
    rewrite Hi. clear Hi Ht.
    destruct s; cbn; try reflexivity.
    all: unfold process_update_cert; cbn;
      destruct (e_state e), (e_upd_digest e), u; reflexivity.
  - rewrite Ht. destruct s; reflexivity.
Qed.

(** *** revoked stays revoked *)
Definition touches_update (c : cert) (o : db_op) : bool :=
  match o with
  | Change c' s _ _ _ =>
      bytes_eqb (H c') (H c) && (state_eqb s UPDATED || state_eqb s UPDATED_BUT_NOT_CONFIRMED)
  | _ => false
  end.
Definition is_revive (c : cert) (o : db_op) : bool :=
  match o with
  | Change c' s _ _ _ => bytes_eqb (H c') (H c) && state_eqb s REVIVED
  | _ => false
  end.

Lemma edge_from_revoked s : edge REVOKED s -> s = REVIVED \/ s = UPDATED \/ s = UPDATED_BUT_NOT_CONFIRMED.
Proof. intro E; inversion E; auto. Qed.

Lemma revoked_step d o c :
  no_unknown d -> get_cert_state H d c = REVOKED ->
  touches_update c o = false -> is_revive c o = false ->
  get_cert_state H (db_step d o) c = REVOKED.
Proof.
  intros Hd Hr Ht Hv.
  destruct (step_lifecycle d o c Hd) as [E|(He & Hok & Hh & Ht')]; [congruence|].
  rewrite Hr in He. apply edge_from_revoked in He. rewrite <- Ht' in He. exfalso.
  destruct o as [c0 s ?|c0 s ? ? ?]; simpl in *.
  - destruct (add_cert H d c0 s now) eqn:Ea; [|discriminate].
    apply add_ok_shape in Ea as [Hs _]. intuition congruence.
  - rewrite Hh, bytes_eqb_refl in Hv, Ht. destruct He as [->|[->| ->]]; discriminate.
Qed.

Lemma revoked_run d ops c :
  no_unknown d -> get_cert_state H d c = REVOKED ->
  (forall o, In o ops -> touches_update c o = false /\ is_revive c o = false) ->
  get_cert_state H (db_run d ops) c = REVOKED.
Proof.
  revert d; induction ops as [|o ops IH]; simpl; intros d Hd Hr Ho; [exact Hr|].
  destruct (Ho o) as [H1 H2]; [auto|].
  apply IH; auto using no_unknown_step, revoked_step.
Qed.

(** *** append-only *)
Lemma same_identity_refl e : same_identity e e.
Proof. unfold same_identity; auto. Qed.
Lemma same_identity_trans a b c : same_identity a b -> same_identity b c -> same_identity a c.
Proof. unfold same_identity; intuition congruence. Qed.

Definition extends (l l' : list db_entry) : Prop :=
  exists l1 l2, l' = l1 ++ l2 /\ Forall2 same_identity l l1.

Lemma Forall2_refl_id l : Forall2 same_identity l l.
Proof. induction l; constructor; auto using same_identity_refl. Qed.

Lemma extends_refl l : extends l l.
Proof. exists l, []. rewrite app_nil_r. split; auto using Forall2_refl_id. Qed.

Lemma Forall2_id_trans a b c :
  Forall2 same_identity a b -> Forall2 same_identity b c -> Forall2 same_identity a c.
Proof.
  intro Hab; revert c; induction Hab; intros c Hbc; inversion Hbc; subst; constructor; eauto using same_identity_trans.
Qed.

Lemma extends_trans a b c : extends a b -> extends b c -> extends a c.
Proof.
  intros (b1 & b2 & -> & Hab) (c1 & c2 & -> & Hbc).
  apply Forall2_app_inv_l in Hbc as (x & y & Hx & Hy & ->).
  exists x, (y ++ c2). split; [now rewrite app_assoc|]. eauto using Forall2_id_trans.
Qed.

Lemma extends_step d o : extends (db_certs d) (db_certs (db_step d o)).
Proof.
  unfold CADbSpec.db_step. destruct (db_call d o) as [d'|] eqn:E; [|apply extends_refl].
  destruct o as [c s now|c s r u now]; simpl in E.
  - apply add_ok_shape in E as (_ & e & -> & _). cbn.
    exists (db_certs d), [e]. auto using Forall2_refl_id.
  - apply change_ok_shape in E as (l' & E & -> & _). cbn.
    apply change_in_split in E as (a & e & b & e' & -> & -> & _ & He & _).
    exists (a ++ e' :: b), []. rewrite app_nil_r. split; [reflexivity|].
    apply Forall2_app; [apply Forall2_refl_id|]. constructor; [|apply Forall2_refl_id].
    apply change_entry_identity in He. tauto.
Qed.

Lemma extends_run d ops : extends (db_certs d) (db_certs (db_run d ops)).
Proof.
  revert d; induction ops as [|o ops IH]; simpl; intro d; [apply extends_refl|].
  eauto using extends_trans, extends_step.
Qed.

Lemma length_step d o :
  length (db_certs (db_step d o)) =
  ((if is_add o && is_ok (db_call d o) then 1 else 0) + length (db_certs d))%nat.
Proof.
  unfold CADbSpec.db_step. destruct (db_call d o) as [d'|] eqn:E; [|now rewrite andb_false_r].
  simpl. rewrite andb_true_r.
  destruct o as [c s now|c s r u now]; simpl in E |- *.
  - apply add_ok_shape in E as (_ & e & -> & _). cbn. rewrite app_length. simpl. lia.
  - apply change_ok_shape in E as (l' & E & -> & _). cbn.
    apply change_in_split in E as (a & e & b & e' & -> & -> & _). rewrite !app_length. reflexivity.
Qed.

Lemma length_run d ops : length (db_certs (db_run d ops)) = (ok_adds H d ops + length (db_certs d))%nat.
Proof.
  revert d; induction ops as [|o ops IH]; intros d; simpl; [reflexivity|].
  rewrite IH, length_step. unfold CADbSpec.db_step. lia.
Qed.

Lemma append_only ops1 ops2 :
  exists old' new,
    db_certs (db_run db_init (ops1 ++ ops2)) = old' ++ new /\
    Forall2 same_identity (db_certs (db_run db_init ops1)) old' /\
    length new = ok_adds H (db_run db_init ops1) ops2.
Proof.
  unfold CADbSpec.db_run. rewrite fold_left_app. fold (db_run db_init ops1).
  set (d := db_run db_init ops1). fold (db_run d ops2).
  destruct (extends_run d ops2) as (l1 & l2 & E & F). exists l1, l2.
  repeat split; auto. pose proof (length_run d ops2) as L. rewrite E, app_length in L.
  apply Forall2_len in F. lia.
Qed.

Lemma add_appends_one d c s now d' :
  add_cert H d c s now = Ok d' ->
  exists e, db_certs d' = db_certs d ++ [e] /\ e_cert e = c /\ e_digest e = H c /\ e_state e = s.
Proof.
  intro E. apply add_ok_shape in E as (_ & e & -> & He & Hc & Hd). exists e. auto.
Qed.

Lemma change_touches_one d c s r u now d' :
  change_cert_state H d c s r u now = Ok d' ->
  exists a e b e', db_certs d = a ++ e :: b /\ db_certs d' = a ++ e' :: b /\
    e_digest e = H c /\ same_identity e e' /\ e_state e' = s /\
    (forall x, In x a -> e_digest x <> H c).
Proof.
  intro E. apply change_ok_shape in E as (l' & E & -> & _).
  apply change_in_split in E as (a & e & b & e' & Hl & -> & Hd & He & Hn).
  apply change_entry_identity in He as [Hi Hs].
  exists a, e, b, e'. auto 10.
Qed.

(** *** views *)
Lemma certs_by_state_In d s c :
  In c (certs_by_state d s) <-> exists e, In e (db_certs d) /\ e_cert e = c /\ e_state e = s.
Proof.
  unfold certs_by_state. rewrite in_map_iff. split.
  - intros (e & <- & He). apply filter_In in He as [Hi He]. apply state_eqb_eq in He. eauto.
  - intros (e & Hi & <- & <-). exists e. split; [reflexivity|]. apply filter_In.
    split; [exact Hi|apply state_eqb_refl].
Qed.

Lemma issued_In d c :
  In c (issued_certs d) <->
  exists e, In e (db_certs d) /\ e_cert e = c /\ e_state e <> NOT_CONFIRMED /\
            e_state e <> UPDATED_BUT_NOT_CONFIRMED.
Proof.
  unfold issued_certs. rewrite in_map_iff. split.
  - intros (e & <- & He). apply filter_In in He as [Hi He].
    exists e. destruct (e_state e); simpl in He; repeat split; congruence.
  - intros (e & Hi & <- & H1 & H2). exists e. split; [reflexivity|]. apply filter_In.
    split; [exact Hi|]. destruct (e_state e); simpl; congruence.
Qed.

Lemma updated_In d c :
  In c (updated_certs d) <->
  exists e, In e (db_certs d) /\ e_cert e = c /\
            (e_state e = UPDATED \/ e_state e = UPDATED_BUT_NOT_CONFIRMED).
Proof.
  unfold updated_certs. rewrite in_app_iff, !certs_by_state_In. firstorder.
Qed.

Lemma views_partition d :
  no_unknown d ->
  (length (not_confirmed_certs d) + length (revoked_certs d) + length (updated_certs d)
   + length (certs_by_state d CONFIRMED) + length (certs_by_state d REVIVED)
   = length (db_certs d))%nat.
Proof.
  unfold not_confirmed_certs, revoked_certs, updated_certs, certs_by_state, no_unknown.
  rewrite app_length, !map_length.
  induction (db_certs d) as [|e l IH]; intro Hn; [reflexivity|].
  assert (Hl : forall e0, In e0 l -> e_state e0 <> UNKNOWN) by (intros; apply Hn; simpl; auto).
  specialize (IH Hl). assert (He : e_state e <> UNKNOWN) by (apply Hn; simpl; auto).
  simpl. destruct (e_state e); simpl; try lia; congruence.
Qed.

Lemma issued_count d :
  (length (issued_certs d) + length (not_confirmed_certs d) + length (certs_by_state d UPDATED_BUT_NOT_CONFIRMED)
   = length (db_certs d))%nat.
Proof.
  unfold issued_certs, not_confirmed_certs, certs_by_state. rewrite !map_length.
  induction (db_certs d) as [|e l IH]; [reflexivity|].
  simpl. destruct (e_state e); simpl; lia.
Qed.

(** *** update history *)
Lemma last_irrel {A} (x : A) t a b : last (x :: t) a = last (x :: t) b.
Proof. revert x; induction t as [|y t IH]; intro x; [reflexivity|]. change (last (y :: t) a = last (y :: t) b). apply IH. Qed.

Lemma history_from_chain l fuel e :
  In e l -> chain (replaces H l) (e_cert e :: history_from l fuel e) /\
            (length (history_from l fuel e) <= fuel)%nat.
Proof.
  revert e; induction fuel as [|fuel IH]; intros e Hi; cbn [history_from]; [split; [exact I|apply Nat.le_0_l]|].
  destruct (e_upd_digest e) as [dig|] eqn:Eu; [|split; [exact I|simpl; lia]].
  destruct (get_by_digest l dig) as [e'|] eqn:G; [|split; [exact I|simpl; lia]].
  assert (Hi' : In e' l /\ e_digest e' = dig).
  { apply get_by_digest_some in G as (a & b & -> & Hd & _). split; [apply in_or_app; simpl; auto|exact Hd]. }
  destruct Hi' as [Hi' Hd]. destruct (IH e' Hi') as [Hc Hl]. split.
  - split; [|exact Hc]. exists e, e'. repeat split; auto. congruence.
  - simpl. lia.
Qed.


Lemma history_from_last l fuel e :
  In e l ->
  length (history_from l fuel e) = fuel \/
  exists z, In z l /\ e_cert z = last (history_from l fuel e) (e_cert e) /\
            (e_upd_digest z = None \/ exists dig, e_upd_digest z = Some dig /\
                                      forall x, In x l -> e_digest x <> dig).
Proof.
  revert e; induction fuel as [|fuel IH]; intros e Hi; cbn [history_from]; [left; reflexivity|].
  destruct (e_upd_digest e) as [dig|] eqn:Eu.
  2:{ right. exists e. auto. }
  destruct (get_by_digest l dig) as [e'|] eqn:G.
  - assert (Hi' : In e' l).
    { apply get_by_digest_some in G as (a & b & -> & _). apply in_or_app; simpl; auto. }
    destruct (IH e' Hi') as [Hl|(z & Hz & Hc & Hn)].
    + left. simpl. now rewrite Hl.
    + right. exists z. split; [exact Hz|]. split; [|exact Hn].
      rewrite Hc. clear. destruct (history_from l fuel e') as [|x t]; [reflexivity|].
      cbn [last]. destruct t; [reflexivity|apply last_irrel].
  - right. exists e. split; [exact Hi|]. split; [reflexivity|]. right. exists dig.
    split; [exact Eu|]. apply get_by_digest_none, G.
Qed.

(** every stored digest is the digest of the stored certificate *)
Definition digests_ok (d : cert_db) : Prop := forall e, In e (db_certs d) -> e_digest e = H (e_cert e).
Lemma digests_ok_step d o : digests_ok d -> digests_ok (db_step d o).
Proof.
  unfold digests_ok, CADbSpec.db_step. intros Hd.
  destruct (db_call d o) as [d'|] eqn:E; [|exact Hd].
  destruct o as [c s now|c s r u now]; simpl in E.
  - apply add_ok_shape in E as (Hs & e & -> & _ & Hc & He). cbn.
    intros x Hx. apply in_app_or in Hx as [Hx|[<-|[]]]; [auto|congruence].
  - apply change_ok_shape in E as (l' & E & -> & Hs). cbn.
    apply change_in_split in E as (a & e & b & e' & Hl & -> & _ & He & _).
    apply change_entry_identity in He as [(H1 & H2 & _) _].
    intros x Hx. apply in_app_or in Hx as [Hx|[<-|Hx]].
    + apply Hd. rewrite Hl. apply in_or_app; auto.
    + rewrite <- H1, <- H2. apply Hd. rewrite Hl. apply in_or_app. simpl; auto.
    + apply Hd. rewrite Hl. apply in_or_app. simpl; auto.
Qed.
Lemma digests_ok_run d ops : digests_ok d -> digests_ok (db_run d ops).
Proof. revert d; induction ops as [|o ops IH]; simpl; intros d Hd; auto using digests_ok_step. Qed.

Lemma history_spec d c l :
  digests_ok d ->
  get_updated_history H d c = Some l ->
  exists c0 t e, l = c0 :: t /\ H c0 = H c /\ get_cert H d c = Some e /\ e_cert e = c0 /\
    chain (replaces H (db_certs d)) l /\ (length l <= 11)%nat /\
    (length l = 11%nat \/
     exists z, In z (db_certs d) /\ e_cert z = last l c0 /\
       (e_upd_digest z = None \/ exists dig, e_upd_digest z = Some dig /\
                                  forall x, In x (db_certs d) -> e_digest x <> dig)).
Proof.
  intros Hd. unfold get_updated_history.
  destruct (get_cert H d c) as [e|] eqn:G; [|discriminate].
  destruct (e_upd_digest e) as [dig|] eqn:Eu; [|discriminate]. intro E.
  assert (El : l = e_cert e :: history_from (db_certs d) 10 e) by congruence. clear E. subst l.
  assert (Hi : In e (db_certs d) /\ e_digest e = H c).
  { unfold get_cert in G. apply get_by_digest_some in G as (a & b & -> & Hx & _).
    split; [apply in_or_app; simpl; auto|exact Hx]. }
  destruct Hi as [Hi Hx].
  destruct (history_from_chain (db_certs d) 10 e Hi) as [Hc Hl].
  exists (e_cert e), (history_from (db_certs d) 10 e), e.
  split; [reflexivity|]. split; [rewrite <- Hd by exact Hi; exact Hx|].
  split; [reflexivity|]. split; [reflexivity|]. split; [exact Hc|]. split.
  - cbn [length]; lia.
  - destruct (history_from_last (db_certs d) 10 e Hi) as [Hl'|(z & Hz & Hc' & Hn)].
    + left. cbn [length]; lia.
    + right. exists z. split; [exact Hz|]. split; [|exact Hn].
      rewrite Hc'. remember (history_from (db_certs d) 10 e) as t. destruct t; [reflexivity|].
      simpl. destruct t; [reflexivity|]. apply last_irrel.
Qed.

Lemma change_accepted_iff d c s r u now :
  is_ok (change_cert_state H d c s r u now) = true <->
  exists e, get_cert H d c = Some e /\
    match s with
    | CONFIRMED => e_state e = NOT_CONFIRMED
    | REVOKED => e_state e = CONFIRMED \/ e_state e = REVIVED
    | REVIVED => e_state e = REVOKED
    | UPDATED_BUT_NOT_CONFIRMED => u <> None
    | UPDATED => u <> None \/ (e_state e = UPDATED_BUT_NOT_CONFIRMED /\ e_upd_digest e <> None)
    | NOT_CONFIRMED | UNKNOWN => False
    end.
Proof.
  rewrite change_accept_iff. destruct (get_cert H d c) as [e|].
  - split.
    + intro A. exists e. split; [reflexivity|].
      destruct s, (e_state e) eqn:E, (e_upd_digest e), u; simpl in A; try discriminate; auto;
        try (left; congruence); try congruence; try (right; split; congruence).
    + intros (e' & E & A). injection E as <-.
      destruct s, (e_state e) eqn:E, (e_upd_digest e), u; simpl in *; intuition congruence.
  - split; [discriminate|]. intros (e & E & _). discriminate.
Qed.

Lemma revoked_stays ops1 ops2 c :
  get_cert_state H (db_run db_init ops1) c = REVOKED ->
  (forall c' s r u now, In (Change c' s r u now) ops2 -> H c' = H c ->
     s <> REVIVED /\ s <> UPDATED /\ s <> UPDATED_BUT_NOT_CONFIRMED) ->
  get_cert_state H (db_run db_init (ops1 ++ ops2)) c = REVOKED.
Proof.
  intros Hr Ho. unfold CADbSpec.db_run. rewrite fold_left_app. apply revoked_run; auto.
  - apply no_unknown_run, no_unknown_init.
  - intros [c' s now|c' s r u now] Hi; simpl; [auto|].
    destruct (bytes_eqb_spec (H c') (H c)) as [E|E]; [|auto].
    destruct (Ho _ _ _ _ _ Hi E) as (A & B & C).
    split; simpl; rewrite ?orb_false_iff, ?state_eqb_neq; auto.
Qed.

Lemma views_all ops :
  let d := db_run db_init ops in
  (forall c, In c (issued_certs d) <-> exists e, In e (db_certs d) /\ e_cert e = c /\
               e_state e <> NOT_CONFIRMED /\ e_state e <> UPDATED_BUT_NOT_CONFIRMED) /\
  (forall c, In c (revoked_certs d) <-> exists e, In e (db_certs d) /\ e_cert e = c /\ e_state e = REVOKED) /\
  (forall c, In c (updated_certs d) <-> exists e, In e (db_certs d) /\ e_cert e = c /\
               (e_state e = UPDATED \/ e_state e = UPDATED_BUT_NOT_CONFIRMED)) /\
  (forall c, In c (not_confirmed_certs d) <-> exists e, In e (db_certs d) /\ e_cert e = c /\
               e_state e = NOT_CONFIRMED) /\
  (length (not_confirmed_certs d) + length (revoked_certs d) + length (updated_certs d)
   + length (certs_by_state d CONFIRMED) + length (certs_by_state d REVIVED)
   = length (db_certs d))%nat /\
  (length (issued_certs d) + length (not_confirmed_certs d)
   + length (certs_by_state d UPDATED_BUT_NOT_CONFIRMED) = length (db_certs d))%nat.
Proof.
  intro d. repeat split; try apply issued_In; try apply certs_by_state_In; try apply updated_In.
  - apply views_partition. apply no_unknown_run, no_unknown_init.
  - apply issued_count.
Qed.

Lemma update_history_chain ops c l :
  let d := db_run db_init ops in
  get_updated_history H d c = Some l ->
  exists c0 t e, l = c0 :: t /\ H c0 = H c /\ get_cert H d c = Some e /\ e_cert e = c0 /\
    chain (replaces H (db_certs d)) l /\ (length l <= 11)%nat /\
    (length l = 11%nat \/
     exists z, In z (db_certs d) /\ e_cert z = last l c0 /\
       (e_upd_digest z = None \/ exists dig, e_upd_digest z = Some dig /\
                                  forall x, In x (db_certs d) -> e_digest x <> dig)).
Proof.
  intros d Hh. eapply history_spec; eauto. apply digests_ok_run. intros e [].
Qed.

Lemma history_none d c :
  get_updated_history H d c = None <->
  forall e, get_cert H d c = Some e -> e_upd_digest e = None.
Proof.
  unfold get_updated_history. destruct (get_cert H d c) as [e|].
  - destruct (e_upd_digest e) eqn:E; split; try discriminate.
    + intro F. specialize (F e eq_refl). congruence.
    + intros _ e' E'. injection E' as <-. exact E.
    + reflexivity.
  - split; [discriminate|reflexivity].
Qed.

(** *** OCSP and CRL *)
Variable serial : cert -> Z.
Variable subject : cert -> bytes.
Variable key_of : cert -> pubkey.
Lemma existsb_Zeqb n l : existsb (Z.eqb n) l = true <-> In n l.
Proof.
  rewrite existsb_exists. split.
  - intros (x & Hx & E). apply Z.eqb_eq in E. now subst.
  - intro Hi. exists n. split; [exact Hi|apply Z.eqb_refl].
Qed.

Lemma rl_serials_build l : rl_serials serial (rl_build H l) = map serial l.
Proof. unfold rl_serials, rl_build. rewrite map_map. reflexivity. Qed.

Lemma rl_cert_by_serial_build l n :
  rl_cert_by_serial serial (rl_build H l) n = find (fun c => serial c =? n) l.
Proof.
  unfold rl_cert_by_serial, rl_build. induction l as [|c l IH]; [reflexivity|].
  simpl. destruct (serial c =? n); [reflexivity|exact IH].
Qed.

Lemma rv_nums_build d n :
  In n (rv_nums serial (rv_build H (revoked_certs d) (updated_certs d) (db_crl_number d))) <->
  exists e, In e (db_certs d) /\ serial (e_cert e) = n /\
    (e_state e = REVOKED \/ e_state e = UPDATED \/ e_state e = UPDATED_BUT_NOT_CONFIRMED).
Proof.
  unfold rv_nums, rv_build. cbn [rv_rev rv_upd rv_update_eq_rev].
  rewrite in_app_iff, !rl_serials_build, !in_map_iff. split.
  - intros [(c & <- & Hc)|(c & <- & Hc)].
    + apply certs_by_state_In in Hc as (e & Hi & <- & Hs). exists e. auto.
    + apply updated_In in Hc as (e & Hi & <- & Hs). exists e. auto.
  - intros (e & Hi & <- & [Hs|Hs]).
    + left. exists (e_cert e). split; [reflexivity|]. apply certs_by_state_In. eauto.
    + right. exists (e_cert e). split; [reflexivity|]. apply updated_In. eauto.
Qed.


Lemma ocsp_spec d extra n :
  match db_ocsp H serial d extra n with
  | Ok (A_status c O_revoked) =>
      exists e, In e (db_certs d) /\ e_cert e = c /\ serial c = n /\ e_state e = REVOKED
  | Ok (A_status c O_good) =>
      serial c = n /\
      (In c extra \/ exists e, In e (db_certs d) /\ e_cert e = c /\
                      (e_state e <> NOT_CONFIRMED)) /\
      (forall e, In e (db_certs d) -> serial (e_cert e) = n -> ~ out_of_service (e_state e))
  | Ok A_unauthorized =>
      (forall e, In e (db_certs d) -> serial (e_cert e) = n -> e_state e = NOT_CONFIRMED) /\
      (forall c, In c extra -> serial c <> n)
  | Ok (A_status _ O_unauthorized) => False
  | Err x =>
      x = ENotImplemented /\
      (forall e, In e (db_certs d) -> serial (e_cert e) = n -> e_state e <> REVOKED) /\
      (exists e, In e (db_certs d) /\ serial (e_cert e) = n /\
                 (e_state e = UPDATED \/ e_state e = UPDATED_BUT_NOT_CONFIRMED))
  end.
Proof.
  unfold db_ocsp, rv_ocsp, ocsp_check.
  destruct (existsb (Z.eqb n) _) eqn:Ex.
  - apply existsb_Zeqb, rv_nums_build in Ex. cbn [rv_rev rv_build].
    rewrite rl_cert_by_serial_build. destruct (find _ _) as [c|] eqn:F.
    + apply find_some in F as [Fi Fs]. apply Z.eqb_eq in Fs.
      apply certs_by_state_In in Fi as (e & Hi & Hc & Hs). exists e. auto.
    + assert (Hno : forall e, In e (db_certs d) -> serial (e_cert e) = n -> e_state e <> REVOKED).
      { intros e Hi Hn Hs.
        assert (Hin : In (e_cert e) (revoked_certs d)) by (apply certs_by_state_In; eauto).
        apply (find_none _ _ F) in Hin. rewrite Hn, Z.eqb_refl in Hin. discriminate. }
      split; [reflexivity|]. split; [exact Hno|].
      destruct Ex as (e & Hi & Hn & [Hs|Hs]); [|eauto].
      exfalso. eapply Hno; eauto.
  - assert (Hno : forall e, In e (db_certs d) -> serial (e_cert e) = n -> ~ out_of_service (e_state e)).
    { intros e Hi Hn Ho.
      assert (T : existsb (Z.eqb n) (rv_nums serial (rv_build H (revoked_certs d) (updated_certs d) (db_crl_number d))) = true).
      { apply existsb_Zeqb, rv_nums_build. exists e. auto. }
      congruence. }
    destruct (find _ _) as [c|] eqn:F.
    + apply find_some in F as [Fi Fs]. apply Z.eqb_eq in Fs. subst n. split; [reflexivity|].
      split; [|exact Hno]. apply in_app_or in Fi as [Fi|Fi]; [right|left; exact Fi].
      apply issued_In in Fi as (e & ? & ? & ? & ?). eauto.
    + split.
      * intros e Hi Hn. destruct (state_eqb (e_state e) NOT_CONFIRMED) eqn:Es; [now apply state_eqb_eq|].
        apply state_eqb_neq in Es. exfalso.
        assert (Hin : In (e_cert e) (issued_certs d ++ extra)).
        { apply in_or_app; left. apply issued_In. exists e. repeat split; auto.
          intro E. apply (Hno e Hi Hn). unfold out_of_service; auto. }
        apply (find_none _ _ F) in Hin. rewrite Hn, Z.eqb_refl in Hin. discriminate.
      * intros c Hc Hn. assert (Hin : In c (issued_certs d ++ extra)) by (apply in_or_app; auto).
        apply (find_none _ _ F) in Hin. rewrite Hn, Z.eqb_refl in Hin. discriminate.
Qed.

(** CRL histories over the revocation store *)
Lemma crl_serials_spec d n :
  In n (crl_serials (snd (db_current_crl H serial d))) <->
  exists e, In e (db_certs d) /\ serial (e_cert e) = n /\ out_of_service (e_state e).
Proof. apply rv_nums_build. Qed.

(** *** revocation lists *)
Lemma remove_first_spec {A} (p : A -> bool) l :
  (exists a x b, l = a ++ x :: b /\ p x = true /\ (forall y, In y a -> p y = false) /\
                 remove_first p l = a ++ b) \/
  ((forall y, In y l -> p y = false) /\ remove_first p l = l).
Proof.
  induction l as [|y l IH]; simpl; [right; split; [intros ? []|reflexivity]|].
  destruct (p y) eqn:E.
  - left. exists [], y, l. repeat split; auto. intros ? [].
  - destruct IH as [(a & x & b & -> & Hp & Hn & ->)|(Hn & ->)].
    + left. exists (y :: a), x, b. repeat split; auto. intros z [<-|Hz]; auto.
    + right. split; [|reflexivity]. intros z [<-|Hz]; auto.
Qed.

Lemma rl_remove_spec l e :
  (exists a x b, l = a ++ x :: b /\ re_cert x = re_cert e /\
      (forall y, In y a -> re_cert y <> re_cert e) /\ rl_remove l e = a ++ b) \/
  ((forall y, In y l -> re_cert y <> re_cert e) /\ rl_remove l e = l).
Proof.
  unfold rl_remove.
  destruct (remove_first_spec (fun x => cert_eqb (re_cert e) (re_cert x)) l)
    as [(a & x & b & -> & Hp & Hn & Hr)|(Hn & Hr)].
  - left. exists a, x, b. unfold cert_eqb in *. apply bytes_eqb_eq in Hp.
    repeat split; auto. intros y Hy. apply Hn, bytes_eqb_neq in Hy. congruence.
  - right. split; [|exact Hr]. intros y Hy. apply Hn, bytes_eqb_neq in Hy. congruence.
Qed.

Lemma rl_is_revoked_In l c : rl_is_revoked l c = true <-> exists e, In e l /\ re_cert e = c.
Proof.
  unfold rl_is_revoked, rl_certs. rewrite existsb_exists. split.
  - intros (x & Hx & E). apply bytes_eqb_eq in E. subst x. apply in_map_iff in Hx as (e & <- & He). eauto.
  - intros (e & He & <-). exists (re_cert e). split; [apply in_map; exact He|apply bytes_eqb_refl].
Qed.

Lemma rl_remove_gone l e :
  NoDup (rl_certs l) -> rl_is_revoked (rl_remove l e) (re_cert e) = false.
Proof.
  intro Hn. destruct (rl_is_revoked _ _) eqn:E; [|reflexivity]. exfalso.
  apply rl_is_revoked_In in E as (x & Hx & Hc).
  destruct (rl_remove_spec l e) as [(a & y & b & -> & Hy & Ha & Hr)|(Ha & Hr)]; rewrite Hr in Hx.
  - unfold rl_certs in Hn. rewrite map_app in Hn. simpl in Hn. apply NoDup_remove_2 in Hn.
    apply Hn. rewrite <- map_app, Hy, <- Hc. apply in_map, Hx.
  - eapply Ha; eauto.
Qed.

Lemma rl_add_fold l es : rl_add l es = fold_left rl_add_one es l.
Proof. reflexivity. Qed.

(** *** key recognition *)
Lemma pubkey_eqb_eq a b : pubkey_eqb a b = true <-> a = b.
Proof.
  destruct a, b; simpl; try (split; congruence).
  - rewrite bytes_eqb_eq. split; congruence.
  - rewrite !andb_true_iff, !bytes_eqb_eq. split; [intros [[-> ->] ->]; reflexivity|intro E; injection E; auto].
Qed.

Lemma existsb_pubkey k l : existsb (pubkey_eqb k) l = true <-> In k l.
Proof.
  rewrite existsb_exists. split.
  - intros (x & Hx & E). apply pubkey_eqb_eq in E. now subst.
  - intro Hi. exists k. split; [exact Hi|now apply pubkey_eqb_eq].
Qed.

Lemma compromised_In l k :
  In k (compromised_keys key_of l) <->
  exists e, In e l /\ (k = key_of (re_cert e) \/ exists x, k = Plain x /\ In x (components (key_of (re_cert e)))).
Proof.
  unfold compromised_keys. rewrite in_flat_map. split.
  - intros (e & He & Hk). exists e. split; [exact He|].
    destruct (key_of (re_cert e)); simpl in *.
    + destruct Hk as [<-|[]]; auto.
    + destruct Hk as [<-|[<-|[<-|[]]]]; eauto 6.
  - intros (e & He & Hk). exists e. split; [exact He|].
    destruct (key_of (re_cert e)); simpl in *.
    + destruct Hk as [->|(x & -> & [<-|[]])]; auto.
    + destruct Hk as [->|(x & -> & [<-|[<-|[]]])]; auto.
Qed.

Lemma plain_compromised l x :
  In (Plain x) (compromised_keys key_of l) <-> exists e, In e l /\ In x (components (key_of (re_cert e))).
Proof.
  rewrite compromised_In. split.
  - intros (e & He & [Hk|(y & Hy & Hi)]); exists e; (split; [exact He|]).
    + rewrite <- Hk. simpl; auto.
    + injection Hy as ->. exact Hi.
  - intros (e & He & Hi). exists e. eauto.
Qed.

Lemma contains_key_spec l k :
  rl_contains_key key_of l k = true <-> exists e, In e l /\ shares k (key_of (re_cert e)).
Proof.
  destruct k as [x|n p t]; simpl.
  - rewrite existsb_pubkey, plain_compromised. unfold shares; simpl.
    split; intros (e & He & Hx); exists e; (split; [exact He|]); [eauto|].
    destruct Hx as (y & [<-|[]] & Hy). exact Hy.
  - rewrite !orb_true_iff, !existsb_pubkey, !plain_compromised. unfold shares. split.
    + intros [[(e & He & Hx)|(e & He & Hx)]|Hx].
      * exists e; split; [exact He|]. exists p; simpl; auto.
      * exists e; split; [exact He|]. exists t; simpl; auto.
      * apply compromised_In in Hx as (e & He & [Hk|(y & Hy & _)]); [|discriminate].
        exists e. split; [exact He|]. rewrite <- Hk. exists p; simpl; auto.
    + intros (e & He & y & [<-|[<-|[]]] & Hy); left; [left|right]; eauto.
Qed.

Lemma scan_keys_sound l ks : scan_keys key_of l ks = true ->
  exists k, In (Some k) ks /\ rl_contains_key key_of l k = true.
Proof.
  induction ks as [|[k|] ks IH]; simpl; try discriminate.
  destruct (rl_contains_key key_of l k) eqn:E; [eauto|]. intro Hs. destruct (IH Hs) as (k' & ? & ?). eauto.
Qed.

Lemma scan_keys_complete l ks k :
  (forall x, In x ks -> x <> None) ->
  In (Some k) ks -> rl_contains_key key_of l k = true -> scan_keys key_of l ks = true.
Proof.
  intro Hn. induction ks as [|x ks IH]; simpl; [contradiction|].
  intros Hi Hk. destruct x as [k'|].
  - destruct Hi as [E|Hi].
    + injection E as ->. now rewrite Hk.
    + destruct (rl_contains_key key_of l k'); [reflexivity|]. apply IH; auto. intros y Hy. apply Hn. simpl; auto.
  - exfalso. apply (Hn None); simpl; auto.
Qed.

(** Exact answer of the pairwise comparison: sharing a component, except that a
    hybrid's traditional component is not compared with the stored PQ one. *)
Lemma compare_spec k c :
  compare_pub_keys key_of k c = true <->
  match k, key_of c with
  | Hybrid _ p t, Hybrid _ p' t' => p = p' \/ t = t' \/ p = t'
  | _, _ => shares k (key_of c)
  end.
Proof.
  unfold compare_pub_keys, shares. destruct k as [x|n p t], (key_of c) as [y|n' p' t']; cbn [pubkey_eqb components].
  - rewrite bytes_eqb_eq. split; [intros ->; exists y; simpl; auto|intros (z & [<-|[]] & [<-|[]]); reflexivity].
  - destruct (bytes_eqb_spec x t'), (bytes_eqb_spec x p'); subst; split; try congruence; intros; try (eexists; simpl; eauto; fail).
    match goal with K : exists _, _ |- _ => destruct K as (z & [<-|[]] & [<-|[<-|[]]]); congruence end.
  - rewrite orb_true_iff, !bytes_eqb_eq. split.
    + intros [->| ->]; eexists; simpl; eauto.
    + intros (z & [<-|[<-|[]]] & [<-|[]]); auto.
  - clear serial subject H. destruct (bytes_eqb_spec n n'), (bytes_eqb_spec p p'), (bytes_eqb_spec t t'), (bytes_eqb_spec p t');
      cbn; split; intro K; auto; try discriminate K; try (destruct K as [K|[K|K]]; congruence).
Qed.

Lemma check_contains_spec certs k s :
  check_contains_pub_key subject key_of certs k s = true <->
  exists c, In c certs /\ subject c = s /\ compare_pub_keys key_of k c = true.
Proof.
  unfold check_contains_pub_key. rewrite existsb_exists. split.
  - intros (c & Hc & E). apply andb_true_iff in E as [E1 E2]. apply bytes_eqb_eq in E1. eauto.
  - intros (c & Hc & <- & E). exists c. rewrite bytes_eqb_refl, E. auto.
Qed.





Lemma ocsp_revoked d extra e :
  In e (db_certs d) -> e_state e = REVOKED ->
  exists c, db_ocsp H serial d extra (serial (e_cert e)) = Ok (A_status c O_revoked) /\
            serial c = serial (e_cert e).
Proof.
  intros Hi Hs. pose proof (ocsp_spec d extra (serial (e_cert e))) as S.
  destruct (db_ocsp H serial d extra (serial (e_cert e))) as [[|c [| |]]|x].
  - destruct S as [S _]. rewrite (S e Hi eq_refl) in Hs. discriminate.
  - destruct S as (_ & _ & S). exfalso. apply (S e Hi eq_refl). unfold out_of_service; auto.
  - destruct S as (e' & _ & _ & S & _). eauto.
  - contradiction.
  - destruct S as (_ & S & _). exfalso. apply (S e Hi eq_refl Hs).
Qed.

Lemma ocsp_good d extra e :
  In e (db_certs d) -> (e_state e = CONFIRMED \/ e_state e = REVIVED) ->
  (forall e', In e' (db_certs d) -> serial (e_cert e') = serial (e_cert e) -> ~ out_of_service (e_state e')) ->
  exists c, db_ocsp H serial d extra (serial (e_cert e)) = Ok (A_status c O_good) /\
            serial c = serial (e_cert e).
Proof.
  intros Hi Hs Hn. pose proof (ocsp_spec d extra (serial (e_cert e))) as S.
  destruct (db_ocsp H serial d extra (serial (e_cert e))) as [[|c [| |]]|x].
  - destruct S as [S _]. rewrite (S e Hi eq_refl) in Hs. destruct Hs; discriminate.
  - destruct S as (S & _). eauto.
  - destruct S as (e' & Hi' & <- & Hser & Hrev). exfalso. apply (Hn e' Hi' Hser). unfold out_of_service; auto.
  - contradiction.
  - destruct S as (_ & _ & e' & Hi' & Hser & Hst). exfalso. apply (Hn e' Hi' Hser). unfold out_of_service; auto.
Qed.

Lemma ocsp_unknown d extra n :
  (forall e, In e (db_certs d) -> serial (e_cert e) <> n) -> (forall c, In c extra -> serial c <> n) ->
  db_ocsp H serial d extra n = Ok A_unauthorized.
Proof.
  intros Hd He. pose proof (ocsp_spec d extra n) as S.
  destruct (db_ocsp H serial d extra n) as [[|c [| |]]|x]; [reflexivity| | | |].
  - destruct S as (Hc & [Hx|(e & Hi & <- & _)] & _); exfalso; [eapply He; eauto|eapply Hd; eauto].
  - destruct S as (e & Hi & <- & Hc & _). exfalso; eapply Hd; eauto.
  - contradiction.
  - destruct S as (_ & _ & e & Hi & Hc & _). exfalso; eapply Hd; eauto.
Qed.

Lemma crls_of_ge rv ops : forall c, In c (crls_of H serial rv ops) -> rv_crl_number rv <= crl_number c.
Proof.
  revert rv; induction ops as [|[|es|c0] ops IH]; intros rv c Hi; simpl in Hi; [contradiction| | |].
  - destruct Hi as [<-|Hi]; [simpl; lia|]. apply IH in Hi. simpl in Hi. lia.
  - apply IH in Hi. exact Hi.
  - apply IH in Hi. exact Hi.
Qed.

Lemma crl_numbers_increase rv ops i j ci cj :
  (i < j)%nat ->
  nth_error (crls_of H serial rv ops) i = Some ci ->
  nth_error (crls_of H serial rv ops) j = Some cj ->
  crl_number ci < crl_number cj.
Proof.
  revert rv i j; induction ops as [|[|es|c0] ops IH]; intros rv i j Hij; simpl.
  - destruct i; discriminate.
  - destruct i as [|i], j as [|j]; try lia; cbn [nth_error].
    + intros E Hj. injection E as <-. apply nth_error_In, crls_of_ge in Hj. simpl in *. lia.
    + apply IH. lia.
  - apply IH; exact Hij.
  - apply IH; exact Hij.
Qed.

Lemma is_remove_iff r : is_remove r = true <-> r = R_removeFromCRL.
Proof. destruct r; simpl; split; congruence. Qed.

Lemma remove_from_crl l e :
  re_reason e = R_removeFromCRL ->
  (exists a x b, l = a ++ x :: b /\ re_cert x = re_cert e /\
      (forall y, In y a -> re_cert y <> re_cert e) /\ rl_add l [e] = a ++ b) \/
  ((forall y, In y l -> re_cert y <> re_cert e) /\ rl_add l [e] = l).
Proof.
  intro Hr. unfold rl_add, rl_add_one; simpl. rewrite Hr; simpl. apply rl_remove_spec.
Qed.

Lemma other_reason_appends l e : re_reason e <> R_removeFromCRL -> rl_add l [e] = l ++ [e].
Proof.
  intro Hr. unfold rl_add, rl_add_one; simpl.
  destruct (is_remove (re_reason e)) eqn:E; [|reflexivity]. apply is_remove_iff in E. contradiction.
Qed.

Lemma removed_not_revoked l e :
  NoDup (rl_certs l) -> re_reason e = R_removeFromCRL -> rl_is_revoked (rl_add l [e]) (re_cert e) = false.
Proof.
  intros Hn Hr. unfold rl_add, rl_add_one; simpl. rewrite Hr; simpl. apply rl_remove_gone, Hn.
Qed.

Lemma others_unaffected l es c :
  (forall e, In e es -> re_cert e <> c) -> rl_is_revoked (rl_add l es) c = rl_is_revoked l c.
Proof.
  clear H serial subject key_of.
  unfold rl_add. revert l; induction es as [|e es IH]; intros l Hn; [reflexivity|].
  cbn [fold_left]. rewrite IH by (intros; apply Hn; simpl; auto).
  assert (He : re_cert e <> c) by (apply Hn; simpl; auto).
  apply eq_true_iff_eq. rewrite !rl_is_revoked_In. unfold rl_add_one.
  destruct (is_remove (re_reason e)).
  - destruct (rl_remove_spec l e) as [(a & x & b & -> & Hx & _ & ->)|(_ & ->)]; [|tauto].
    split; intros (y & Hy & Hc); exists y; (split; [|exact Hc]).
    + apply in_app_or in Hy. apply in_or_app. simpl. tauto.
    + apply in_app_or in Hy. apply in_or_app. simpl in Hy.
      destruct Hy as [?|[<-|?]]; auto. congruence.
  - split; intros (y & Hy & Hc); exists y; (split; [|exact Hc]).
    + apply in_app_or in Hy as [?|[<-|[]]]; auto. congruence.
    + apply in_or_app; auto.
Qed.

Lemma compromised_sound d b keys :
  rv_check_compromised key_of d b keys = true ->
  exists k, In (Some k) keys /\ exists e, In e (rv_rev d) /\ shares k (key_of (re_cert e)).
Proof.
  assert (G : scan_keys key_of (rv_rev d) keys = true ->
     exists k, In (Some k) keys /\ exists e, In e (rv_rev d) /\ shares k (key_of (re_cert e))).
  { intro Hs. apply scan_keys_sound in Hs as (k & Hk & Hc). exists k. split; [exact Hk|].
    apply contains_key_spec, Hc. }
  destruct b; simpl; try discriminate; auto.
  destruct keys as [|[k|] ks]; try discriminate. intro Hc. exists k. split; [simpl; auto|].
  apply contains_key_spec, Hc.
Qed.

Lemma compromised_detected d b keys :
  (b = B_ir \/ b = B_cr \/ b = B_kur \/ (b = B_p10cr /\ length keys = 1%nat)) ->
  (forall x, In x keys -> x <> None) ->
  (rv_check_compromised key_of d b keys = true <->
   exists k, In (Some k) keys /\
     exists e, In e (rv_rev d) /\ shares k (key_of (re_cert e))).
Proof.
  intros Hb Hn. split; [apply compromised_sound|]. intros (k & Hk & Hs).
  apply contains_key_spec in Hs.
  assert (G : scan_keys key_of (rv_rev d) keys = true) by (eapply scan_keys_complete; eauto).
  destruct Hb as [->|[->|[->|[-> Hl]]]]; simpl; auto.
  destruct keys as [|[k'|] [|? ?]]; try discriminate.
  destruct Hk as [E|[]]. injection E as ->. exact Hs.
Qed.

Lemma key_reuse issued revoked updated k s :
  ksc_contains subject key_of issued revoked updated k s = true <->
  exists c, In c (issued ++ revoked ++ updated) /\ subject c = s /\
    match k, key_of c with
    | Hybrid _ p t, Hybrid _ p' t' => p = p' \/ t = t' \/ p = t'
    | _, _ => shares k (key_of c)
    end.
Proof.
  unfold ksc_contains. rewrite check_contains_spec.
  split; intros (c & Hc & Hs & Hk); exists c; (split; [exact Hc|]); (split; [exact Hs|]).
  - apply compare_spec, Hk.
  - apply compare_spec, Hk.
Qed.

Lemma key_reuse_sound issued revoked updated k s :
  ksc_contains subject key_of issued revoked updated k s = true ->
  exists c, In c (issued ++ revoked ++ updated) /\ subject c = s /\ shares k (key_of c).
Proof.
  rewrite key_reuse. intros (c & Hc & Hs & Hk). exists c. split; [exact Hc|]. split; [exact Hs|].
  destruct k as [x|n p t], (key_of c) as [y|n' p' t']; try exact Hk.
  destruct Hk as [Hk|[Hk|Hk]]; [exists p|exists t|exists p]; subst; simpl; auto.
Qed.

Lemma status_priority issued revoked updated k s :
  let used l := exists c, In c l /\ subject c = s /\ compare_pub_keys key_of k c = true in
  match ksc_status subject key_of issued revoked updated k s with
  | KS_revoked => used revoked
  | KS_updated => used updated /\ ~ used revoked
  | KS_in_use => used issued /\ ~ used revoked /\ ~ used updated
  | KS_good => ~ used issued /\ ~ used revoked /\ ~ used updated
  end.
Proof.
  intro used. unfold ksc_status, used.
  destruct (check_contains_pub_key subject key_of revoked k s) eqn:E1;
    [apply check_contains_spec in E1; exact E1|].
  destruct (check_contains_pub_key subject key_of updated k s) eqn:E2.
  - split; [apply check_contains_spec in E2; exact E2|].
    intro U. apply check_contains_spec in U. congruence.
  - destruct (check_contains_pub_key subject key_of issued k s) eqn:E3;
      repeat split; try (apply check_contains_spec in E3; exact E3);
      intro U; apply check_contains_spec in U; congruence.
Qed.



End P.
