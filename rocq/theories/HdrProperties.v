(** Properties C43-C45 and C63-C71: the keywords a tester uses to check
    nonces, transactionIDs, times, generalInfo, sender fields and nested
    messages.  Vocabulary in HdrSpec.v. *)
From Coq Require Import String.
From Verif Require Import Prelude HdrModel HdrSpec HdrProofs HdrMore.
Open Scope Z_scope.

(** ** Concrete messages for the examples *)

Definition n16 (x : Z) : bytes := repeat x 16.
Definition dn (x : Z) (s : string) : name := {| n_der := [x]; n_attrs := [(3, s)] |}.
Definition dn_nocn (x : Z) : name := {| n_der := [x]; n_attrs := [(6, "DE"%string)] |}.
Definition cert0 : cert := {| c_subject := dn 7 "CA"; c_ski := Some [1; 2; 3] |}.
Definition env0 : env := {|
  e_now := 5000000000;
  e_dec_time := fun b => match b with [24; x] => Some (x * 1000000000, []) | _ => None end;
  e_utf8 := fun b => match b with
                     | [67; 65] => Some "CA"%string
                     | [78] => Some "NULL-DN"%string
                     | _ => None end;
  e_attr_key := fun t => if t =? 3 then Some "CN"%string else if t =? 6 then Some "C"%string else None;
  e_cn := 3;
  e_no_cert := Err EIndexError |}.
Definition hdr0 (tx sn rn : option bytes) (snd : gname) (time : Z) (p : option ptype) : header := {|
  h_pvno := 2; h_sender := snd; h_recipient := GDir (dn 9 "EE");
  h_time := Some time; h_palg := p; h_kid := Some [1; 2; 3];
  h_tx := tx; h_snonce := sn; h_rnonce := rn; h_ginfo := None |}.
Definition mk (b : bname) (tx sn : Z) (rn : option Z) (inner : list msg) : msg :=
  Msg (hdr0 (Some (n16 tx)) (Some (n16 sn)) (option_map n16 rn) (GDir (dn 7 "CA")) 5000000000 (Some PTradSig))
      b inner (Some [1]) (Some [cert0]).

(** ** C43: nonce diversity *)

Theorem C43_diverse : forall nonces minimal,
  (forall n, In n nonces -> is_bytes n = true) ->
  (nonces_must_be_diverse nonces minimal = Ok tt <->
   forall i j, (i < j < List.length nonces)%nat ->
     minimal <= bit_distance (nth i nonces []) (nth j nonces [])).
Proof. exact diverse_iff. Qed.
Print Assumptions C43_diverse.

Theorem C43_unique : forall nonces, nonces_must_be_unique nonces = Ok tt <-> NoDup nonces.
Proof. exact unique_iff. Qed.
Print Assumptions C43_unique.

Theorem C43_diverse_is_unique : forall nonces minimal,
  (forall n, In n nonces -> is_bytes n = true) -> 1 <= minimal ->
  nonces_must_be_diverse nonces minimal = Ok tt -> nonces_must_be_unique nonces = Ok tt.
Proof. exact diverse_unique. Qed.
Print Assumptions C43_diverse_is_unique.

Theorem C43_only_valueerror : forall nonces minimal e,
  nonces_must_be_diverse nonces minimal = Err e \/ nonces_must_be_unique nonces = Err e -> e = EValueError.
Proof. intros n m e [H|H]; [exact (diverse_err _ _ _ H)|exact (unique_err _ _ H)]. Qed.
Print Assumptions C43_only_valueerror.

Example C43_ex : nonces_must_be_diverse [[255; 15]; [0]; [1; 240; 7]] 8 = Ok tt
  /\ nonces_must_be_diverse [[255; 15]; [0]; [1; 240; 7]] 9 = Err EValueError.
Proof. split; reflexivity. Qed.

Example C43_ex_distance : bit_distance [255; 15] [0] = 12 /\ bit_distance [0] [1; 240; 7] = 8.
Proof. split; reflexivity. Qed.

Example C43_ex_unique : nonces_must_be_unique [[1]; [2]; [1; 0]] = Ok tt
  /\ nonces_must_be_unique [[1]; [2]; [1]] = Err EValueError.
Proof. split; reflexivity. Qed.

(** ** C44: manipulating a byte string *)

Theorem C44_changes : forall data out,
  manipulate_first_byte data = Ok out ->
  List.length out = List.length data /\ out <> data /\ skipn 1 out = skipn 1 data /\
  (is_bytes data = true -> is_bytes out = true).
Proof.
  intros [|b r] out H; [discriminate|]. cbn [manipulate_first_byte] in H. injection H as <-.
  cbn [List.length skipn]. split; [reflexivity|]. split; [|split; [reflexivity|]].
  - intros E. injection E as E. destruct (b =? 0) eqn:B.
    + apply Z.eqb_eq in B. lia.
    + apply Z.eqb_neq in B. lia.
  - cbn [is_bytes forallb]. intros B. apply andb_prop in B. destruct B as [_ B].
    apply andb_true_intro. split; [destruct (b =? 0); reflexivity|exact B].
Qed.
Print Assumptions C44_changes.

Theorem C44_empty : forall data, (exists e, manipulate_first_byte data = Err e) <-> data = [].
Proof.
  intros [|b r]; cbn; split; intros H; try congruence; try (destruct H; discriminate). eauto.
Qed.
Print Assumptions C44_empty.

(** Applying it twice restores the input only when the first byte is 0 or 1. *)
Theorem C44_twice : forall b r out,
  manipulate_first_byte (b :: r) = Ok out ->
  (manipulate_first_byte out = Ok (b :: r) <-> b = 0 \/ b = 1).
Proof.
  intros b r out H. cbn [manipulate_first_byte] in H. injection H as <-.
  cbn [manipulate_first_byte]. destruct (b =? 0) eqn:B.
  - apply Z.eqb_eq in B. subst. split; [auto|reflexivity].
  - apply Z.eqb_neq in B. change (0 =? 0) with true. cbn iota. split.
    + intros H. injection H as H. lia.
    + intros [H|H]; [lia|subst; reflexivity].
Qed.
Print Assumptions C44_twice.

Theorem C44_twice_refuted : ~ (forall data out, is_bytes data = true ->
  manipulate_first_byte data = Ok out -> manipulate_first_byte out = Ok data).
Proof. intros H. specialize (H [7; 8] [0; 8] eq_refl eq_refl). discriminate. Qed.
Print Assumptions C44_twice_refuted.

Example C44_ex : manipulate_first_byte [0; 5] = Ok [1; 5] /\ manipulate_first_byte [200; 5] = Ok [0; 5].
Proof. split; reflexivity. Qed.

(** ** C45: header binding *)

Theorem C45_transaction_id : forall response request,
  validate_transaction_id response request = Ok tt <->
  has_len (f_tx response) 16 /\
  match request with Some q => f_tx q = f_tx response | None => True end.
Proof. exact transaction_id_iff. Qed.
Print Assumptions C45_transaction_id.

Theorem C45_nonces : forall response request sec,
  validate_sender_and_recipient_nonce response request sec = Ok tt <->
  same_set (f_sn request) (f_rn response) /\
  has_bits (f_rn response) (Z.max 128 sec) /\ has_bits (f_sn response) (Z.max 128 sec).
Proof. exact nonce_iff. Qed.
Print Assumptions C45_nonces.

Theorem C45_sender_and_recipient : forall response request must,
  validate_sender_and_recipient response request must = Ok tt <->
  has_len (f_tx response) 16 /\ f_tx request = f_tx response /\
  same_set (f_sn request) (f_rn response) /\
  has_bits (f_rn response) 128 /\ has_bits (f_sn response) 128 /\
  (must = true -> gname_eqb (h_recipient (hdr response)) (h_sender (hdr request)) = true).
Proof. exact sender_recipient_iff. Qed.
Print Assumptions C45_sender_and_recipient.

(** Names compare equal exactly when they are the same GeneralName, directory
    names by their DER value. *)
Theorem C45_same_name : forall a b, gname_eqb a b = true <->
  match a, b with
  | GDir x, GDir y => n_der x = n_der y
  | _, _ => a = b
  end.
Proof. exact gname_eqb_iff. Qed.
Print Assumptions C45_same_name.

Example C45_ex :
  validate_sender_and_recipient (mk Bip 1 2 (Some 3) []) (mk Bir 1 3 None []) false = Ok tt
  /\ validate_sender_and_recipient (mk Bip 1 2 (Some 3) []) (mk Bir 1 4 None []) false = Err EBadRecipientNonce
  /\ validate_sender_and_recipient (mk Bip 9 2 (Some 3) []) (mk Bir 1 3 None []) false = Err EBadRequest.
Proof. repeat split; reflexivity. Qed.

(** ** C63: messageTime *)

Theorem C63_message_time : forall e m interval rt,
  check_message_time_field e m interval rt = Ok tt <->
  (info_in ConfirmWaitTime m -> set (h_time (hdr m))) /\
  (forall i, interval = Some i -> exists t, h_time (hdr m) = Some t /\
     match rt with
     | None => t <= e_now e <= t + i * 1000000
     | Some q => t <= q + i * 1000000
     end).
Proof. exact time_iff. Qed.
Print Assumptions C63_message_time.

(** With a request, the check is one-sided: a response stamped arbitrarily
    long before its request is accepted. *)
Theorem C63_interval_refuted : ~ (forall e m i q t,
  check_message_time_field e m (Some i) (Some q) = Ok tt -> h_time (hdr m) = Some t ->
  Z.abs (t - q) <= i * 1000000).
Proof.
  intros H. specialize (H env0 (mk Bip 1 2 None []) 200 100000000000 5000000000 eq_refl eq_refl).
  revert H. apply Zlt_not_le. reflexivity.
Qed.
Print Assumptions C63_interval_refuted.

Example C63_ex :
  check_message_time_field env0 (mk Bip 1 2 None []) (Some 200) None = Ok tt
  /\ check_message_time_field env0 (mk Bip 1 2 None []) (Some 200) (Some 4900000000) = Ok tt
  /\ check_message_time_field env0 (mk Bip 1 2 None []) (Some 200) (Some 4700000000) = Err EBadTime.
Proof. repeat split; reflexivity. Qed.

(** ** C64: generalInfo *)

Theorem C64_general_info : forall e m,
  check_generalinfo e m = Ok tt <->
  (forall v, first_info_of ImplicitConfirm m v ->
     (v = VNull \/ v = VBytes [5; 0]) /\
     (body m = Bip \/ body m = Bcp \/ body m = Bkup \/ body m = Bir \/ body m = Bcr \/ body m = Bkur \/ body m = Bp10cr))
  /\ (forall v, first_info_of ConfirmWaitTime m v ->
     ~ info_in ImplicitConfirm m /\
     exists b t, v = VBytes b /\ e_dec_time e b = Some (t, []) /\ e_now e < t)
  /\ (info_in CertProfile m ->
     body m = Bir \/ body m = Bcr \/ body m = Bkur \/ body m = Bp10cr \/ body m = Bgenm).
Proof.
  intros e m. rewrite generalinfo_iff, implicitconfirm_iff, confirmwaittime_iff, certprofile_iff. reflexivity.
Qed.
Print Assumptions C64_general_info.

(** Only the first entry of a type is looked at: a further implicitConfirm with
    a value passes. *)
Definition twice_confirm : msg :=
  Msg {| h_pvno := 2; h_sender := GDir (dn 7 "CA"); h_recipient := GDir (dn 9 "EE");
         h_time := None; h_palg := None; h_kid := None; h_tx := None; h_snonce := None; h_rnonce := None;
         h_ginfo := Some [(ImplicitConfirm, VNull); (ImplicitConfirm, VBytes [4; 0])] |} Bip [] None None.

Theorem C64_every_entry_refuted : ~ (forall e m l v,
  check_generalinfo e m = Ok tt -> h_ginfo (hdr m) = Some l -> In (ImplicitConfirm, v) l ->
  v = VNull \/ v = VBytes [5; 0]).
Proof.
  intros H.
  destruct (H env0 twice_confirm [(ImplicitConfirm, VNull); (ImplicitConfirm, VBytes [4; 0])] (VBytes [4; 0]) eq_refl eq_refl)
    as [E|E]; [right; left; reflexivity|discriminate|discriminate].
Qed.
Print Assumptions C64_every_entry_refuted.

(** The CA-side check rejects exactly the count that RFC 9483 asks for: one
    profile per request. *)
Theorem C64_profile_count_refuted : forall m n ps known,
  ps <> [] -> cert_profile_body (body m) = true -> h_ginfo (hdr m) <> None ->
  cert_profile_msg_size (body m) n = Ok (List.length ps) ->
  validate_cert_profile_for_ca m n (Some ps) false known = Err EBadRequest.
Proof.
  intros m n ps known N B G S. unfold validate_cert_profile_for_ca.
  destruct (h_ginfo (hdr m)); [|congruence]. rewrite B, S. cbn [guard bind negb].
  destruct ps; [congruence|]. cbn [List.length Nat.eqb negb guard bind]. rewrite Nat.eqb_refl. reflexivity.
Qed.
Print Assumptions C64_profile_count_refuted.

Definition with_info (b : bname) (l : list (itype * ivalue)) : msg :=
  Msg {| h_pvno := 2; h_sender := GDir (dn 7 "CA"); h_recipient := GDir (dn 9 "EE");
         h_time := None; h_palg := None; h_kid := None; h_tx := None; h_snonce := None; h_rnonce := None;
         h_ginfo := Some l |} b [] None None.

Example C64_ex :
  check_generalinfo env0 (with_info Bip [(OtherInfo, VUnset); (ImplicitConfirm, VBytes [5; 0])]) = Ok tt
  /\ check_generalinfo env0 (with_info Bcp [(ConfirmWaitTime, VBytes [24; 6])]) = Ok tt
  /\ check_generalinfo env0 (with_info Bcp [(ConfirmWaitTime, VBytes [24; 5])]) = Err EValueError
  /\ check_generalinfo env0 (with_info Bpkiconf [(ImplicitConfirm, VNull)]) = Err EBadRequest
  /\ check_generalinfo env0 (with_info Bcp [(ConfirmWaitTime, VBytes [24; 6]); (ImplicitConfirm, VNull)]) = Err EBadRequest.
Proof. repeat split; reflexivity. Qed.

Example C64_ex_profile :
  validate_cert_profile_for_ca (with_info Bir []) 1 (Some ["tls"%string]) false (Some ["tls"%string]) = Err EBadRequest
  /\ validate_cert_profile_for_ca (with_info Bir []) 1 (Some ["tls"%string; "a"%string]) false None = Ok tt.
Proof. split; reflexivity. Qed.

(** ** C65: sender and senderKID *)

Theorem C65_protection : forall m must b,
  check_is_protection_present m must = Ok b <->
  (b = true /\ protected m) \/ (b = false /\ must = false /\ unprotected m).
Proof. exact protection_present_iff. Qed.
Print Assumptions C65_protection.

(** Signature protection: the sender is the subject of the first certificate
    (for a mail address: its textual form), the senderKID its key identifier. *)
Theorem C65_signature : forall e m must allow p,
  protected m -> h_palg (hdr m) = Some p -> p <> PUnknown -> p <> PMac -> p <> PKem ->
  (check_sender_cmp_protection e m must false = Ok tt <->
   exists c, cert_for e m c /\
     match h_sender (hdr m) with
     | GDir d => n_der d = n_der (c_subject c)
     | GMail s => s = full_notation e (c_subject c)
     | _ => False
     end)
  /\ (validate_senderkid e m None must allow = Ok tt <->
   exists kid c, h_kid (hdr m) = Some kid /\ cert_for e m c /\
     (c_ski c = None \/ c_ski c = Some kid)).
Proof.
  intros e m must allow p P E U M K. split.
  - exact (sender_sig_iff e m must p P E U M K).
  - exact (senderkid_sig_iff e m must allow p P E U M K).
Qed.
Print Assumptions C65_signature.

(** MAC protection. *)
Theorem C65_mac : forall e m must,
  protected m -> mac_protected m ->
  (check_sender_cmp_protection e m must false = Ok tt <-> exists n, h_sender (hdr m) = GDir n)
  /\ (validate_senderkid e m None must false = Ok tt <->
   exists kid s n c, h_kid (hdr m) = Some kid /\ e_utf8 e kid = Some s /\ h_sender (hdr m) = GDir n /\
     cert_for e m c /\ cn_notation e n <> EmptyString /\
     removeprefix "CN=" s = removeprefix "CN=" (cn_notation e n)).
Proof.
  intros e m must P M. split.
  - rewrite (sender_mac_iff e m must false P M). split; [intros [H|H]; [discriminate|exact H]|auto].
  - exact (senderkid_mac_iff e m must P M).
Qed.
Print Assumptions C65_mac.

(** The textual form of a name: the selected attributes as KEY=value, joined by
    commas; "NULL-DN" when there is none. *)
Theorem C65_notation : forall key keep n,
  name_notation key keep n =
  match map (item key) (filter (fun x => keep (fst x)) (n_attrs n)) with
  | [] => "NULL-DN"%string
  | l => join l
  end.
Proof. exact notation_spec. Qed.
Print Assumptions C65_notation.

(** A MAC-protected message whose sender has no commonName passes both checks
    although failures are not allowed. *)
Definition mac_no_cn : msg :=
  Msg {| h_pvno := 2; h_sender := GDir (dn_nocn 7); h_recipient := GDir (dn 9 "EE");
         h_time := None; h_palg := Some PMac; h_kid := Some [78]; h_tx := None; h_snonce := None; h_rnonce := None;
         h_ginfo := None |} Bip [] (Some [1]) (Some [cert0]).

Theorem C65_common_name_refuted : ~ (forall e m n,
  protected m -> h_palg (hdr m) = Some PMac -> h_sender (hdr m) = GDir n ->
  check_sender_cmp_protection e m true false = Ok tt -> validate_senderkid e m None true false = Ok tt ->
  exists v, In (e_cn e, v) (n_attrs n)).
Proof.
  intros H. destruct (H env0 mac_no_cn (dn_nocn 7)) as [v [E|[]]]; try reflexivity.
  - split; discriminate.
  - discriminate.
Qed.
Print Assumptions C65_common_name_refuted.

(** The textual form does not determine the name. *)
Theorem C65_notation_ambiguous : exists e n n',
  map snd (n_attrs n) <> map snd (n_attrs n') /\ full_notation e n = full_notation e n'.
Proof.
  exists env0, {| n_der := []; n_attrs := [(3, "a,C=DE"%string)] |},
               {| n_der := []; n_attrs := [(3, "a"%string); (6, "DE"%string)] |}.
  split; [discriminate|reflexivity].
Qed.
Print Assumptions C65_notation_ambiguous.

Example C65_ex :
  check_sender_cmp_protection env0 (mk Bip 1 2 None []) true false = Ok tt
  /\ validate_senderkid env0 (mk Bip 1 2 None []) None true false = Ok tt
  /\ protected (mk Bip 1 2 None []).
Proof. split; [reflexivity|]. split; [reflexivity|]. split; discriminate. Qed.

(** ** C66: nested messages have fresh identifiers *)

Theorem C66_nested_unique : forall m ct cs cr cl,
  validate_nested_unique m ct cs cr cl = Ok tt <->
  body m = Bnested /\
  exists ids snonces rnonces,
    all_set f_tx (m :: inner m) ids /\ all_set f_sn (m :: inner m) snonces /\
    (if cr then all_set f_rn (m :: inner m) rnonces
     else rnonces = match f_rn m with Some r => [r] | None => [] end) /\
    (ct = true -> NoDup ids) /\ (cs = true -> NoDup snonces) /\ (cr = true -> NoDup rnonces) /\
    (cl = true -> Forall (fun b => List.length b = 16%nat) (ids ++ snonces ++ rnonces)).
Proof. exact nested_unique_iff. Qed.
Print Assumptions C66_nested_unique.

Example C66_ex :
  validate_nested_unique (mk Bnested 1 2 None [mk Bir 3 4 None []; mk Bcr 5 6 None []]) true true false true = Ok tt
  /\ validate_nested_unique (mk Bnested 1 2 None [mk Bir 3 4 None []; mk Bcr 1 6 None []]) true true false true = Err EBadRequest.
Proof. split; reflexivity. Qed.

(** ** C67: added protection *)

Theorem C67_added_protection : forall m cl,
  validate_add_protection m cl = Ok tt <->
  exists im, inner m = [im] /\
    same_set (f_tx m) (f_tx im) /\ same_set (f_sn m) (f_sn im) /\
    f_rn m = f_rn im /\ (set (f_rn m) <-> body im = BcertConf) /\
    (cl = true -> has_len (f_tx m) 16 /\ has_len (f_sn m) 16 /\ (set (f_rn m) -> has_len (f_rn m) 16)).
Proof. exact add_protection_iff. Qed.
Print Assumptions C67_added_protection.

Example C67_ex :
  validate_add_protection (mk Bnested 1 2 None [mk Bir 1 2 None []]) true = Ok tt
  /\ validate_add_protection (mk Bnested 1 2 (Some 3) [mk BcertConf 1 2 (Some 3) []]) true = Ok tt
  /\ validate_add_protection (mk Bnested 1 2 (Some 3) [mk Bir 1 2 (Some 3) []]) true = Err EBadRecipientNonce
  /\ validate_add_protection (mk Bnested 1 2 None [mk Bir 1 7 None []]) true = Err EBadSenderNonce.
Proof. repeat split; reflexivity. Qed.

(** ** C68: nested responses *)

(** Missing from the full claim: batches in which two requests have the same
    type (refuted below). *)
Theorem C68_nested_response_partial : forall request response,
  validate_nested_response request response = Ok tt ->
  body response = Bnested /\ List.length (inner response) = List.length (inner request) /\
  has_len (f_tx response) 16 /\ f_tx request = f_tx response /\
  same_set (f_sn request) (f_rn response) /\
  (NoDup (map body (inner request)) ->
   forall q, In q (inner request) ->
     exists r, In r (inner response) /\ replies_to q r /\ reply_type (body q) (body r)).
Proof. exact nested_response_sound. Qed.
Print Assumptions C68_nested_response_partial.

Theorem C68_honest_accepted : forall request response,
  validate_sender_and_recipient response request false = Ok tt ->
  body response = Bnested -> List.length (inner response) = List.length (inner request) ->
  (forall r, In r (inner response) -> set (f_rn r) /\ set (f_tx r)) ->
  (forall q, In q (inner request) -> set (f_sn q) /\ set (f_tx q)) ->
  (forall q, In q (inner request) -> exists r, In r (inner response) /\ replies_to q r) ->
  (forall q r, In q (inner request) -> In r (inner response) -> replies_to q r ->
     reply_type (body q) (body r)) ->
  validate_nested_response request response = Ok tt.
Proof. exact nested_response_complete. Qed.
Print Assumptions C68_honest_accepted.

(** Two requests of the same type: the first is not checked at all. *)
Theorem C68_every_request_refuted : ~ (forall request response q,
  validate_nested_response request response = Ok tt -> In q (inner request) ->
  exists r, In r (inner response) /\ replies_to q r).
Proof.
  intros H.
  destruct (H (mk Bnested 1 2 None [mk Bir 3 4 None []; mk Bir 5 6 None []])
              (mk Bnested 1 9 (Some 2) [mk Bip 77 8 (Some 78) []; mk Bip 5 8 (Some 6) []])
              (mk Bir 3 4 None []) eq_refl) as [r [Hr [E _]]].
  - left. reflexivity.
  - destruct Hr as [<-|[<-|[]]]; destruct E as [E _]; discriminate.
Qed.
Print Assumptions C68_every_request_refuted.

Example C68_ex :
  validate_nested_response (mk Bnested 1 2 None [mk Bir 3 4 None []; mk Bcr 5 6 None []])
    (mk Bnested 1 9 (Some 2) [mk Bcp 5 8 (Some 6) []; mk Berror 3 8 (Some 4) []]) = Ok tt
  /\ validate_nested_response (mk Bnested 1 2 None [mk Bir 3 4 None []; mk Bcr 5 6 None []])
    (mk Bnested 1 9 (Some 2) [mk Bcp 5 8 (Some 6) []; mk Bcp 3 8 (Some 4) []]) = Err EValueError
  /\ NoDup (map body (inner (mk Bnested 1 2 None [mk Bir 3 4 None []; mk Bcr 5 6 None []]))).
Proof.
  split; [reflexivity|]. split; [reflexivity|]. cbn.
  constructor; [intros [E|[]]; discriminate|]. constructor; [intros []|constructor].
Qed.

(** ** C69: body types of a response *)

Theorem C69_body_types : forall error request response,
  validate_cmp_body_types request response error = Ok tt <-> answers error request response.
Proof. intros error request response. exact (body_types_iff error request response). Qed.
Print Assumptions C69_body_types.

Example C69_ex :
  validate_cmp_body_types (mk Bnested 1 2 None [mk Bnested 3 4 None [mk Bir 3 4 None []]; mk Bp10cr 5 6 None []])
    (mk Bnested 1 2 None [mk Bip 3 4 None []; mk Bcp 5 6 None []]) (Some false) = Ok tt
  /\ validate_cmp_body_types (mk Bir 1 2 None []) (mk Berror 1 2 None []) (Some false) = Err EValueError
  /\ validate_cmp_body_types (mk Bir 1 2 None []) (mk Berror 1 2 None []) None = Ok tt.
Proof. repeat split; reflexivity. Qed.

(** ** C70: identifiers of a request *)

Theorem C70_request : forall request response,
  validate_request_message_nonces_and_tx_id request response = Ok tt <->
  body request <> Bnested /\
  has_len (f_tx request) 16 /\ has_len (f_sn request) 16 /\
  ((body request = BcertConf /\ has_len (f_rn request) 16 /\
    exists r, response = Some r /\ f_tx r = f_tx request /\ f_rn r = f_sn request /\ f_sn r = f_rn request)
   \/ (body request <> BcertConf /\ f_rn request = None)).
Proof. exact request_iff. Qed.
Print Assumptions C70_request.

Theorem C70_wrong_integrity : forall m,
  validate_wrong_integrity m = Ok tt <->
  (body m = Bccr \/ body m = Bkur \/ body m = Brr \/ body m = Bnested ->
   exists p, h_palg (hdr m) = Some p /\ p <> PUnknown /\ p <> PMac /\
     (body m = Bccr -> p <> PDh /\ p <> PKem)).
Proof. exact wrong_integrity_iff. Qed.
Print Assumptions C70_wrong_integrity.

Example C70_ex :
  validate_request_message_nonces_and_tx_id (mk Bir 1 2 None []) None = Ok tt
  /\ validate_request_message_nonces_and_tx_id (mk BcertConf 1 2 (Some 3) []) (Some (mk Bip 1 3 (Some 2) [])) = Ok tt
  /\ validate_request_message_nonces_and_tx_id (mk BcertConf 1 2 (Some 3) []) (Some (mk Bip 1 4 (Some 2) [])) = Err EBadRecipientNonce
  /\ validate_request_message_nonces_and_tx_id (mk Bir 1 2 (Some 3) []) None = Err EBadRecipientNonce
  /\ validate_wrong_integrity (mk Bkur 1 2 None []) = Ok tt.
Proof. repeat split; reflexivity. Qed.

(** ** C71: the whole header check *)

Theorem C71_header : forall e response request protection interval allow,
  validate_pkimessage_header e response request protection interval allow = Ok tt <->
  (h_pvno (hdr response) = 2 \/ h_pvno (hdr response) = 3) /\
  (protected response \/ (protection = false /\ unprotected response)) /\
  check_sender_cmp_protection e response protection allow = Ok tt /\
  validate_senderkid e response None protection allow = Ok tt /\
  check_generalinfo e response = Ok tt /\
  check_message_time_field e response interval
    (match request with Some r => h_time (hdr r) | None => None end) = Ok tt /\
  (forall q, request = Some q -> validate_sender_and_recipient response q false = Ok tt).
Proof. exact header_sound. Qed.
Print Assumptions C71_header.

(** What a passing header check with a request says about the pair. *)
Theorem C71_bound_to_request : forall e response q protection interval allow,
  validate_pkimessage_header e response (Some q) protection interval allow = Ok tt ->
  has_len (f_tx response) 16 /\ f_tx response = f_tx q /\ f_rn response = f_sn q /\
  has_bits (f_rn response) 128 /\ has_bits (f_sn response) 128.
Proof.
  intros e response q protection interval allow H. apply header_sound in H.
  destruct H as [_ [_ [_ [_ [_ [_ H]]]]]]. specialize (H q eq_refl). apply sender_recipient_iff in H.
  destruct H as [A [B [[C _] [D [E _]]]]]. auto.
Qed.
Print Assumptions C71_bound_to_request.

Example C71_ex :
  validate_pkimessage_header env0 (mk Bip 1 2 (Some 3) []) (Some (mk Bir 1 3 None [])) true (Some 200) false = Ok tt.
Proof. reflexivity. Qed.
