(** Every change the handlers make to the CA state is one of a few primitive
    updates, each attributed to the (outer or inner) message that causes it. *)
From Verif Require Export CAFacts CADbSpec.
Local Open Scope Z_scope.

(** [part m q]: [q] is [m] itself or a message nested somewhere inside it. *)
Inductive part : msg -> msg -> Prop :=
| part_self m : part m m
| part_in m i q : In i (m_inner m) -> part i q -> part m q.

Section Updates.
Variable w : world.

(** Database operations a message may cause. *)
Inductive db_cause (v : env) (q : msg) (s : ca) : db_op -> Prop :=
| D_add c certs enc :
    is_cert_req (m_body q) = true -> v_issue v q = Ok (true, certs, enc) -> In c certs ->
    db_cause v q s (Add c (if check_if_used q enc then CONFIRMED else NOT_CONFIRMED) (v_now v))
| D_update old new certs enc :
    m_body q = B_kur -> v_issue v q = Ok (true, certs, enc) ->
    hd_error (m_extra q) = Some old -> hd_error certs = Some new ->
    db_cause v q s (Change old (if check_if_used q enc then UPDATED else UPDATED_BUT_NOT_CONFIRMED)
                           None (Some new) (v_now v))
| D_confirm tx c certs :
    m_body q = B_certConf -> m_tx q = Some tx -> dget bytes_eqb tx (s_ccerts s) = Some certs -> In c certs ->
    db_cause v q s (Change c CONFIRMED None None (v_now v))
| D_updated tx req r old :
    m_body q = B_certConf -> m_tx q = Some tx -> dget bytes_eqb tx (s_creq s) = Some req ->
    dget bytes_eqb tx (s_cresp s) = Some r -> r_body r = B_kup -> hd_error (m_extra req) = Some old ->
    db_cause v q s (Change old UPDATED None None (v_now v))
| D_revoke c r : m_body q = B_rr ->
    db_cause v q s (Change c REVOKED
      (Some {| re_reason := r; re_cert := c; re_hash := None; re_date := Some (v_now v) |}) None (v_now v))
| D_revive c : m_body q = B_rr -> db_cause v q s (Change c REVIVED None None (v_now v)).

Inductive prim (v : env) (q : msg) (s : ca) : ca -> Prop :=
| P_tx tx certs enc :
    m_tx q = Some tx -> is_cert_req (m_body q) = true -> v_issue v q = Ok (true, certs, enc) ->
    mem tx (s_ids s) = false ->
    prim v q s (set_tx s (s_ids s ++ [tx]) (dset pair_eqb (tx, m_sender q) certs (s_txcerts s)))
| P_kem_add tx ss :
    m_tx q = Some tx -> m_body q = B_genm -> v_ss v q = Ok ss ->
    prim v q s (set_kem s (kem_add (s_kem s) ss tx (m_sender q)))
| P_kem_mark tx :
    m_tx q = Some tx -> has_prot_type w q PT_KEM = true ->
    prim v q s (set_kem s (kem_mark (s_kem s) tx))
| P_chal_new n tx t :
    m_tx q = Some tx -> v_chal v q = Ok n -> m_challenge q = true -> m_body q = B_ir \/ m_body q = B_cr ->
    prim v q s (set_chal s (dset chal_eqb (n, tx) (t, m_body q) (s_chal s)))
| P_chal_del n tx :
    m_tx q = Some tx -> m_body q = B_popdecr ->
    prim v q s (set_chal s (ddel chal_eqb (n, tx) (s_chal s)))
| P_db o d :
    db_cause v q s o -> db_call (w_H w) (s_db s) o = Ok d -> prim v q s (set_db s d)
| P_conf_req tx :
    m_tx q = Some tx -> is_cert_req (m_body q) = true ->
    prim v q s (set_conf s (s_ccerts s) (s_cresp s) (dset bytes_eqb tx q (s_creq s)) (s_confirmed s))
| P_conf_resp tx r enc :
    m_tx q = Some tx -> is_cert_req (m_body q) = true -> v_issue v q = Ok (true, r_certs r, enc) ->
    r_tx r = Some tx -> r_snonce r = v_nonce v q -> r_rnonce r = m_snonce q ->
    r_body r = resp_body (m_body q) ->
    prim v q s (set_conf s (dset bytes_eqb tx (r_certs r) (s_ccerts s)) (dset bytes_eqb tx r (s_cresp s))
                         (s_creq s) (s_confirmed s))
| P_confirmed tx :
    m_tx q = Some tx -> is_cert_req (m_body q) = true ->
    prim v q s (set_conf s (s_ccerts s) (s_cresp s) (s_creq s) (s_confirmed s ++ [tx]))
| P_close tx :
    m_tx q = Some tx -> m_body q = B_certConf ->
    prim v q s (set_conf s (s_ccerts s) (ddel bytes_eqb tx (s_cresp s)) (ddel bytes_eqb tx (s_creq s))
                         (s_confirmed s ++ [tx]))
| P_close_certs tx :
    m_tx q = Some tx -> m_body q = B_certConf -> In tx (s_confirmed s) ->
    prim v q s (set_conf s (ddel bytes_eqb tx (s_ccerts s)) (s_cresp s) (s_creq s) (s_confirmed s))
| P_stfl_use c i l sig :
    has_prot_type w q PT_STFL = true -> hd_error (m_extra q) = Some c -> m_prot q = Some sig ->
    w_sig_index w c sig = Ok i -> stfl_state w s c = Some l ->
    prim v q s (set_stfl s (dset bytes_eqb (w_H w c) (l ++ [i]) (s_stfl s)))
| P_stfl_new c i :
    w_is_stfl w c = true -> stfl_state w s c = None ->
    prim v q s (set_stfl s (dset bytes_eqb (w_H w c) [i] (s_stfl s)))
| P_cross certs :
    is_cert_req (m_body q) = true \/ m_body q = B_certConf ->
    prim v q s (set_cross s (s_cross s ++ certs)).

Definition steps (v : env) (q : msg) : ca -> ca -> Prop := clos_refl_trans ca (prim v q).
(** updates caused by [m] or a message inside it *)
Definition tree (v : env) (m : msg) : ca -> ca -> Prop :=
  clos_refl_trans ca (fun s s' => exists q, part m q /\ prim v q s s').

Lemma steps_tree v m q s s' : part m q -> steps v q s s' -> tree v m s s'.
Proof.
  intros P St. induction St as [a b Hp | a | a b c _ IH1 _ IH2].
  - apply rt_step. eauto.
  - apply rt_refl.
  - eapply rt_trans; eauto.
Qed.

Lemma tree_part v m q s s' : part m q -> tree v q s s' -> tree v m s s'.
Proof.
  intros P St. induction St as [a b (x & Px & Hp) | a | a b c _ IH1 _ IH2].
  - apply rt_step. exists x. split; [| exact Hp].
    clear Hp. induction P; [exact Px | econstructor; eauto].
  - apply rt_refl.
  - eapply rt_trans; eauto.
Qed.

End Updates.

(** ** Pointwise preservation *)
Section Pointwise.
Context {R : ca -> ca -> Prop} (Rrefl : forall s, R s s) (Rtrans : forall a b c, R a b -> R b c -> R a c).

Lemma pr_bind {A B} (p : M A) (k : A -> M B) s :
  R s (fst (p s)) -> (forall s1 a, p s = (s1, ROk a) -> R s1 (fst (k a s1))) -> R s (fst (bindM p k s)).
Proof.
  intros Hp Hk. unfold bindM. destruct (p s) as [s1 [a | e m]]; [| exact Hp].
  eapply Rtrans; [exact Hp | apply Hk; reflexivity].
Qed.
Lemma pr_bind_lift {A B} m (r : result A) (k : A -> M B) s :
  (forall a, r = Ok a -> R s (fst (k a s))) -> R s (fst (bindM (lift m r) k s)).
Proof. intros Hk. destruct r; cbn; [apply Hk; reflexivity | apply Rrefl]. Qed.
Lemma pr_bind_octets {B} m o (k : bytes -> M B) s :
  (forall b, o = Some b -> R s (fst (k b s))) -> R s (fst (bindM (octets m o) k s)).
Proof. intros Hk. destruct o; cbn; [apply Hk; reflexivity | apply Rrefl]. Qed.
Lemma pr_bind_get {B} (k : ca -> M B) s : R s (fst (k s s)) -> R s (fst (bindM get k s)).
Proof. exact (fun x => x). Qed.
Lemma pr_bind_ret {A B} (a : A) (k : A -> M B) s : R s (fst (k a s)) -> R s (fst (bindM (ret a) k s)).
Proof. exact (fun x => x). Qed.
Lemma pr_bind_raise {A B} m e (k : A -> M B) s : R s (fst (bindM (raise m e) k s)).
Proof. apply Rrefl. Qed.
Lemma pr_bind_modify {B} f (k : unit -> M B) s :
  R s (f s) -> R (f s) (fst (k tt (f s))) -> R s (fst (bindM (modify f) k s)).
Proof. intros H1 H2. cbn. eapply Rtrans; eauto. Qed.
Lemma pr_catch {A} (p : M A) h s :
  R s (fst (p s)) ->
  (forall s1 e m q, p s = (s1, RErr e m) -> h e m = Some q -> R s1 (fst (q s1))) -> R s (fst (catch p h s)).
Proof.
  intros Hp Hh. unfold catch. destruct (p s) as [s1 [a | e m]]; [exact Hp |].
  destruct (h e m) eqn:E; [| exact Hp]. eapply Rtrans; [exact Hp |]. eapply Hh; eauto.
Qed.
End Pointwise.

Ltac rfl := apply rt_refl.
Ltac pr_step :=
  match goal with
  | |- _ ?s (fst (ret _ ?s)) => rfl
  | |- _ ?s (fst (raise _ _ ?s)) => rfl
  | |- _ ?s (fst (get ?s)) => rfl
  | |- _ ?s (fst (lift _ ?r ?s)) => destruct r; cbn; rfl
  | |- _ ?s (fst (octets _ ?r ?s)) => destruct r; cbn; rfl
  | |- _ ?s (fst (bindM (ret _) _ ?s)) => apply (pr_bind_ret (R := _))
  | |- _ ?s (fst (bindM (raise _ _) _ ?s)) => rfl
  | |- _ ?s (fst (bindM get _ ?s)) => apply (pr_bind_get (R := _)); cbv beta
  | |- _ ?s (fst (bindM (lift _ _) _ ?s)) => apply pr_bind_lift; [intros; rfl | intros ? ?]
  | |- _ ?s (fst (bindM (octets _ _) _ ?s)) => apply pr_bind_octets; [intros; rfl | intros ? ?]
  | |- _ ?s (fst (bindM (if ?x then _ else _) _ ?s)) => destruct x eqn:?
  | |- _ ?s (fst (bindM (match ?x with _ => _ end) _ ?s)) => destruct x eqn:?
  | |- _ ?s (fst ((if ?x then _ else _) ?s)) => destruct x eqn:?
  | |- _ ?s (fst ((match ?x with _ => _ end) ?s)) => destruct x eqn:?
  end.
Ltac pr := repeat pr_step.
Ltac prbind := apply pr_bind; [intros; eapply rt_trans; eauto | | intros ? ? ?].
