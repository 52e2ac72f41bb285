(** C110-C111: the controls of certificate requests and the one-time registration token. *)
From Coq Require Import String Ascii Lia.
From Verif Require Import Prelude PyStr CompLoadModel HdrModel ProtTab ProtModel ProtSpec ProtToy PopModel PopSpec PopToy CtrlModel CtrlSpec CtrlProofs.
Open Scope string_scope.
Open Scope Z_scope.
Local Notation length := List.length.

(** ** An environment for the examples *)

Definition X0 : ctx := {|
  x_archive := fun v => match v with [0] => Some (AEncrypted, []) | [1; n] => Some (AParams [n], []) | [2] => Some (AFlag, [])
                                   | 2 :: r => Some (AFlag, r) | _ => None end;
  x_publication := fun v => match v with
                            | [a] => Some ({| pi_action := a; pi_infos := None |}, [])
                            | [a; n; l] => Some ({| pi_action := a; pi_infos := Some [(n, l =? 1)] |}, [])
                            | _ => None end;
  x_text := fun v => match v with [1] => Some ("token", []) | [2] => Some ("secret", []) | [3] => Some ("other", []) | 1 :: r => Some ("token", r) | _ => None end;
  x_name := fun _ => Ok tt;
  x_generate := fun _ b => match b with [n] => Ok {| k_kind := KRsa; k_id := n |} | _ => Err EValueError end
|}.
Definition ctl (t : string) (v : bytes) : control := {| ct_type := t; ct_val := v |}.
Definition tok (n : Z) : control := ctl token_type [n].
Definition aut (n : Z) : control := ctl auth_type [n].
Definition cr_of (x n : Z) (l : option (list control)) : certreq := {| r_id := x; r_tmpl := tmpl (TKey [0; n]); r_controls := l |}.
Definition good (x n : Z) (l : option (list control)) : reqmsg :=
  q_with (cr_of x n l) (Some (PoSig sig256 (sign_req (SPkcs1 "sha256") n (cr_of x n l)))) None.
Definition bad (x n : Z) (l : option (list control)) : reqmsg := q_with (cr_of x n l) (Some (PoSig sig256 [1; 2; 3])) None.
Definition ir (q : reqmsg) : request := msg_of "ir" [q] [] false.
Definition cr (q : reqmsg) : request := msg_of "cr" [q] [] false.
Definition plain (n : Z) : result (list (Z * issued)) := Ok [(0, IPlain (tmpl (TKey [0; n])))].
Definition strict_c : copts :=
  {| co_archive := true; co_publication := true; co_token_must := true; co_auth_must := true; co_extra := Some (Some "token", Some "secret");
     co_token := None; co_found := false; co_auth := None |}.
Definition full : list control := [ctl "id_regCtrl_pkiArchiveOptions" [1; 5]; ctl "id_regCtrl_pkiPublicationInfo" [1; 2; 1]; tok 1; aut 2].

(** ** C110: controls *)

Theorem C110_exact : forall E X c kur r used used',
  validate_controls E X c kur r used = (Ok tt, used') <-> controls_ok E X c kur r used used'.
Proof. exact controls_all. Qed.
Print Assumptions C110_exact.
Theorem C110_text : forall X ty l must expected s, validate_text X ty l must expected = Ok s <-> text_ok X ty l must expected s.
Proof. exact text_exact. Qed.
Print Assumptions C110_text.
Theorem C110_archive : forall E X l must t, validate_archive E X l must t = Ok tt <-> archive_ok E X l must t.
Proof. exact archive_exact. Qed.
Print Assumptions C110_archive.
Theorem C110_publication : forall X l must, validate_publication X l must = Ok tt <-> publication_ok X l must.
Proof. exact publication_exact. Qed.
Print Assumptions C110_publication.
(** A control that must be there is not asked for when the field of the controls is left out. *)
Theorem C110_required_refuted : forall E X c kur r used, r_controls r = None -> validate_controls E X c kur r used = (Ok tt, used).
Proof. intros E X c kur r used H. unfold validate_controls. now rewrite H. Qed.
Print Assumptions C110_required_refuted.
(** The controls that say nothing about another control of the same type: only the registration token and the
    authenticator ask for distinct types. *)
Theorem C110_twice_refuted : exists E X l t, ~ distinct l /\ validate_archive E X l true t = Ok tt /\ validate_publication X l true = Ok tt.
Proof.
  exists E0, X0, [ctl "id_regCtrl_pkiArchiveOptions" [2]; ctl "id_regCtrl_pkiPublicationInfo" [0]; ctl "id_regCtrl_pkiPublicationInfo" [1]], (tmpl (TKey [0; 5])).
  split; [|split; vm_compute; reflexivity]. intro D. apply PopIssue.unique_spec in D. discriminate D.
Qed.
Print Assumptions C110_twice_refuted.
Example C110_ex :
  validate_controls E0 X0 strict_c None (cr_of 0 5 (Some full)) false = (Ok tt, true) /\
  controls_ok E0 X0 strict_c None (cr_of 0 5 (Some full)) false true /\
  validate_controls E0 X0 strict_c None (cr_of 0 6 (Some full)) false = (Err EBadCertTemplate, false) /\
  validate_controls E0 X0 strict_c None (cr_of 0 5 (Some (tok 1 :: full))) false = (Err EBadRequest, false) /\
  validate_controls E0 X0 strict_c None (cr_of 0 5 (Some full)) true = (Err EBadRequest, true) /\
  validate_publication X0 [ctl "id_regCtrl_pkiPublicationInfo" [1; 0; 1]] true = Err EBadDataFormat /\
  validate_publication X0 [ctl "id_regCtrl_pkiPublicationInfo" [0; 1; 1]] true = Err EBadDataFormat /\
  validate_text X0 token_type [ctl token_type [1; 9]] true None = Err EBadAsn1Data /\
  validate_text X0 token_type [] true None = Err EValueError.
Proof.
  split; [vm_compute; reflexivity|]. split; [apply C110_exact; vm_compute; reflexivity|]. do 6 (split; [vm_compute; reflexivity|]). vm_compute; reflexivity.
Qed.
Print Assumptions C110_ex.

(** ** C111: the one-time token *)

(** In every history, however it goes on, at most one request with a registration token gets a certificate by ir or key
    update; none does once the token was used; the one that does has the right token. *)
Theorem C111_once : forall E X token auth l used a u, history E X token auth l used = (a, u) ->
  (length (with_token a) <= 1)%nat /\ (used = true -> with_token a = []) /\
  (forall q, In q (with_token a) -> right_token X token (q_req q)).
Proof. intros E X token auth l used a u H. destruct (history_once _ _ _ _ _ _ _ _ H) as (A & B & C). auto. Qed.
Print Assumptions C111_once.
(** The mark is set only by the right token and never taken back. *)
Theorem C111_mark : forall E X token auth kur r used e u, validate_controls E X (with_data token auth) kur r used = (e, u) ->
  (used = true -> u = true) /\ (used = false -> u = true -> right_token X token r).
Proof.
  intros E X token auth kur r used e u H. split.
  - intros ->. exact (mark_kept _ _ _ _ _ _ _ H).
  - intros -> ->. exact (mark_right _ _ _ _ _ _ _ H).
Qed.
Print Assumptions C111_mark.
(** Every certificate of a history is one the sender is entitled to. *)
Theorem C111_entitled : forall E X token auth l used a u m r j x c, keys_known E -> history E X token auth l used = (a, u) ->
  In (m, Ok r) a -> nth_error r j = Some (x, c) ->
  exists o q w, In (m, o) l /\ nth_error (b_reqs m) j = Some q /\ nth_error (b_reqs m) 0 = Some w /\ r_id (q_req q) = x /\
    entitled E m (options_of m o) w q c.
Proof. exact history_entitled. Qed.
Print Assumptions C111_entitled.
(** The token is used up by a request that is then refused: for its proof of possession, or for its authenticator. *)
Theorem C111_consumed_refuted : exists E X token auth o m1 m2 m3 r,
  keys_known E /\ serve_st E X token auth m3 o false = (Ok r, true) /\
  history E X token auth [(m1, o); (m3, o)] false = ([(m1, Err EBadPOP); (m3, Err EBadRequest)], true) /\
  history E X token auth [(m2, o); (m3, o)] false = ([(m2, Err EBadRequest); (m3, Err EBadRequest)], true).
Proof.
  exists E0, X0, "token", "secret", o0, (ir (bad 0 6 (Some [tok 1]))), (ir (good 0 6 (Some [tok 1; aut 3]))), (ir (good 0 5 (Some [tok 1; aut 2]))).
  eexists. split; [exact E0_keys|]. repeat split; vm_compute; reflexivity.
Qed.
Print Assumptions C111_consumed_refuted.
(** A cr with any token and any authenticator is accepted, any number of times: neither is looked at. *)
Theorem C111_cr_refuted : exists E X token auth o m q r, b_name m = "cr" /\ b_reqs m = [q] /\ has_token (q_req q) = true /\
  ~ right_token X token (q_req q) /\ forall n used, history E X token auth (repeat (m, o) n) used = (repeat (m, Ok r) n, used).
Proof.
  exists E0, X0, "token", "secret", o0, (cr (good 0 5 (Some [tok 3; aut 3]))), (good 0 5 (Some [tok 3; aut 3])). eexists.
  do 3 (split; [reflexivity|]). split.
  - intros (l & v & H & F & T). cbn in H. inversion H; subst l. apply PopIssue.first_some in F. cbn in F. inversion F; subst v. discriminate T.
  - assert (S1 : forall used, serve_st E0 X0 "token" "secret" (cr (good 0 5 (Some [tok 3; aut 3]))) o0 used = (plain 5, used)) by (intros []; vm_compute; reflexivity).
    induction n as [|n IH]; intro used; [reflexivity|]. cbn [repeat history]. rewrite S1, IH. reflexivity.
Qed.
Print Assumptions C111_cr_refuted.
(** No request needs a token: one without controls is answered like the others. *)
Theorem C111_needed_refuted : exists E X token auth o m q r, b_name m = "ir" /\ b_reqs m = [q] /\ has_token (q_req q) = false /\
  forall used, serve_st E X token auth m o used = (Ok r, used).
Proof.
  exists E0, X0, "token", "secret", o0, (ir (good 0 5 None)), (good 0 5 None). eexists. do 3 (split; [reflexivity|]). intros []; vm_compute; reflexivity.
Qed.
Print Assumptions C111_needed_refuted.
Example C111_ex :
  let m1 := ir (good 0 6 (Some [tok 3])) in let m2 := ir (good 0 5 (Some [tok 1; aut 2])) in let m3 := ir (good 0 7 (Some [tok 1])) in
  let m4 := ir (good 0 8 (Some [aut 2])) in
  history E0 X0 "token" "secret" [(m1, o0); (m2, o0); (m3, o0); (m4, o0)] false =
    ([(m1, Err EBadRequest); (m2, plain 5); (m3, Err EBadRequest); (m4, plain 8)], true) /\
  length (with_token [(m1, Err EBadRequest); (m2, plain 5); (m3, Err EBadRequest); (m4, plain 8)]) = 1%nat.
Proof. split; vm_compute; reflexivity. Qed.
Print Assumptions C111_ex.
