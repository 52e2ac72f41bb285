(** Checks of certificate responses: C154 - C156. *)
From Coq Require Import String.
From Verif Require Import Prelude PreludeFacts PyStr GenModel RspModel RspSpec RspProofs.
Open Scope string_scope.
Open Scope Z_scope.
Open Scope list_scope.
Local Notation length := List.length.

(** ** A library and messages for the examples; not a model of any code in /repo *)

Definition toy : lib := {| l_anchors := fun l => guard (forallb (fun c => bytes_eqb c [1]) l) EValueError; l_chain := fun c l => Ok (c :: l);
  l_openssl := fun l => guard (length l =? 2)%nat EValueError |}.
Definition ok_resp (x : coe) (k : option bool) : resp := {| p_id := 0; p_status := "accepted"; p_fail := false; p_pair := Some {| k_cert := x; k_priv := k |} |}.
Definition no_resp (s : string) : resp := {| p_id := 0; p_status := s; p_fail := true; p_pair := None |}.
Definition one (n : string) (v : Z) (ps : option (list cert)) (r : resp) : rmsg := {| b_name := n; b_pvno := v; b_resps := [r]; b_pubs := ps; b_extra := [] |}.

(** ** C154: which responses of a CA pass *)

Theorem C154_accepted :
  forall L m local p ir size i,
  snd (ca_body L m local p ir size i) = Ok tt <->
  response_body m /\ Z.of_nat (length (b_resps m)) = size /\
  (exists r, nth_error (b_resps m) i = Some r /\ p_id r = if p then -1 else 0) /\
  exists s, nth_error (b_resps m) 0 = Some s /\
  ((granted (p_status s) /\ p_fail s = false /\ (exists c, certified m i c) /\ first_fits L m /\ key_fits m local i) \/
   (p_status s = "rejection" /\ no_pair m i /\ b_pubs m = None)).
Proof. exact body_ok. Qed.
Print Assumptions C154_accepted.
Example C154_accepted_ex :
  snd (ca_body toy (one "ip" 2 (Some [[1]]) (ok_resp (Plain [5]) None)) true false false 1 0) = Ok tt /\
  snd (ca_body toy (one "ip" 3 None (ok_resp (Plain [5]) (Some true))) false false false 1 0) = Ok tt /\
  snd (ca_body toy (one "kup" 2 None (no_resp "rejection")) true false false 1 0) = Ok tt /\
  snd (ca_body toy (one "kup" 2 (Some [[1]]) (ok_resp (Plain [5]) None)) true false false 1 0) = Err EValueError /\
  snd (ca_body toy (one "ip" 2 None (ok_resp (Plain [5]) (Some true))) false false false 1 0) = Err EValueError /\
  snd (ca_body toy (one "ip" 2 None (no_resp "waiting")) true false false 1 0) = Err ENotImplemented.
Proof. repeat split. Qed.
Print Assumptions C154_accepted_ex.

(** Finding: the check takes the certificate out of an accepted response.  Afterwards the message has no certificate
    and does not pass any check of a CA message again. *)
Theorem C154_repeatable_refuted :
  forall L m local p ir size i s,
  snd (ca_body L m local p ir size i) = Ok tt -> nth_error (b_resps m) 0 = Some s -> granted (p_status s) ->
  let m' := fst (ca_body L m local p ir size i) in
  no_pair m' i /\ (forall c, snd (get_cert m' i) <> Ok c) /\
  forall L' local' p' ir' size', snd (ca_body L' m' local' p' ir' size' i) <> Ok tt.
Proof. exact body_twice. Qed.
Print Assumptions C154_repeatable_refuted.
Theorem C154_effect :
  forall L m local p ir size i s,
  snd (ca_body L m local p ir size i) = Ok tt -> nth_error (b_resps m) 0 = Some s -> granted (p_status s) ->
  fst (ca_body L m local p ir size i) = put_at m i Gone.
Proof. exact body_after. Qed.
Print Assumptions C154_effect.
Example C154_repeatable_refuted_ex :
  let m := one "ip" 2 None (ok_resp (Plain [5]) None) in
  snd (ca_body toy m true false false 1 0) = Ok tt /\ granted "accepted" /\ snd (get_cert m 0) = Ok [5] /\
  snd (get_cert (fst (ca_body toy m true false false 1 0)) 0) = Err EValueError.
Proof. repeat split. now left. Qed.
Print Assumptions C154_repeatable_refuted_ex.

(** Finding: caPubs, which must be absent in the answer to a cr or to an ir used as cr, are accepted there like in an
    ip. *)
Theorem C154_ca_pubs_refuted :
  forall L m local p ir size i,
  snd (ca_body L (with_name "cp" m) local p ir size i) = Ok tt <-> snd (ca_body L (with_name "ip" m) local p ir size i) = Ok tt.
Proof. exact body_cp. Qed.
Print Assumptions C154_ca_pubs_refuted.
Theorem C154_ir_as_cr_refuted :
  forall L m local p ir ir' size i, snd (ca_body L m local p ir size i) = Ok tt <-> snd (ca_body L m local p ir' size i) = Ok tt.
Proof. exact body_ir. Qed.
Print Assumptions C154_ir_as_cr_refuted.
Example C154_ca_pubs_refuted_ex :
  snd (ca_body toy (one "cp" 2 (Some [[1]]) (ok_resp (Plain [5]) None)) true false true 1 0) = Ok tt /\
  snd (ca_pubs_field toy (one "cp" 2 (Some [[1]]) (ok_resp (Plain [5]) None)) 0 false false) = Err EValueError.
Proof. split; reflexivity. Qed.
Print Assumptions C154_ca_pubs_refuted_ex.

(** Finding: the status is that of the first response, whatever the index.  So another status in the checked response
    changes nothing. *)
Theorem C154_status_refuted :
  forall L m m' local p ir size i, i <> 0%nat -> with_status m m' i ->
  snd (ca_body L m local p ir size i) = Ok tt -> snd (ca_body L m' local p ir size i) = Ok tt.
Proof. exact body_status. Qed.
Print Assumptions C154_status_refuted.
Example C154_status_refuted_ex :
  let r := {| p_id := 0; p_status := "rejection"; p_fail := true; p_pair := Some {| k_cert := Plain [6]; k_priv := None |} |} in
  let m x := {| b_name := "ip"; b_pvno := 2; b_resps := [ok_resp (Plain [5]) None; x]; b_pubs := None; b_extra := [] |} in
  snd (ca_body toy (m (ok_resp (Plain [6]) None)) true false false 2 1) = Ok tt /\ with_status (m (ok_resp (Plain [6]) None)) (m r) 1 /\
  snd (ca_body toy (m r) true false false 2 1) = Ok tt.
Proof.
  cbv zeta. split; [reflexivity|]. split; [|reflexivity]. repeat split.
  - intros [|[|j]] J; [reflexivity | contradiction | reflexivity].
  - intros r R. injection R as <-. eexists. repeat split.
Qed.
Print Assumptions C154_status_refuted_ex.

(** ** C155: the key pair, the certificate and caPubs of a response *)

Theorem C155_structure :
  forall m local i, snd (key_pair_structure m local i) = Ok tt <-> response_body m /\ key_fits m local i /\ (encrypted m i true -> b_pvno m = 3).
Proof. exact structure_ok. Qed.
Print Assumptions C155_structure.
Theorem C155_private_key :
  forall m i b, contains_private_key m i = Ok b <-> response_body m /\ (b = true <-> (exists e, with_key m i e) /\ ~ no_pair m i).
Proof. exact private_key_iff. Qed.
Print Assumptions C155_private_key.
Theorem C155_encrypted :
  forall m i b, contains_encrypted_cert m i = Ok b <-> response_body m /\ (b = true <-> exists e, encrypted m i e).
Proof. exact encrypted_iff. Qed.
Print Assumptions C155_encrypted.
Theorem C155_certificate : forall m i c, snd (get_cert m i) = Ok c <-> response_body m /\ certified m i c.
Proof. exact get_cert_iff. Qed.
Print Assumptions C155_certificate.
(** A certificate can be read any number of times. *)
Theorem C155_certificate_kept : forall m i c, snd (get_cert m i) = Ok c -> fst (get_cert m i) = m.
Proof. exact get_cert_after. Qed.
Print Assumptions C155_certificate_kept.
(** Finding: asking for the certificate of a response with an encrypted one fails and loses the encrypted one. *)
Theorem C155_encrypted_lost_refuted :
  forall m i e, response_body m -> encrypted m i e -> get_cert m i = (put_at m i Gone, Err EValueError) /\ no_pair (fst (get_cert m i)) i.
Proof. intros m i e B C. rewrite (get_cert_lost m i e B C). split; [reflexivity|]. apply coe_gone. exact (put_gone m i). Qed.
Print Assumptions C155_encrypted_lost_refuted.
Example C155_encrypted_lost_refuted_ex :
  let m := one "ip" 3 None (ok_resp (Enc true) None) in
  response_body m /\ encrypted m 0 true /\ contains_encrypted_cert m 0 = Ok true /\ contains_encrypted_cert (fst (get_cert m 0)) 0 = Ok false.
Proof. split; [now left|]. split; [|split; reflexivity]. eexists. split; [eexists; split; reflexivity | reflexivity]. Qed.
Print Assumptions C155_encrypted_lost_refuted_ex.
Theorem C155_ca_pubs :
  forall L m i p ir, snd (ca_pubs_field L m i p ir) = Ok tt <->
  (no_pair m i /\ b_pubs m = None) \/
  (~ no_pair m i /\ response_body m /\ exists c, certified m 0 c /\ pubs_fit L m c /\
   (b_pubs m <> None -> b_name m = "cp" \/ ir = true -> p = true)).
Proof. exact pubs_ok. Qed.
Print Assumptions C155_ca_pubs.
Example C155_ex :
  snd (key_pair_structure (one "cp" 3 None (ok_resp (Enc true) (Some true))) false 0) = Ok tt /\
  snd (key_pair_structure (one "cp" 2 None (ok_resp (Enc true) None)) true 0) = Err EValueError /\
  contains_private_key (one "cp" 2 None (ok_resp (Plain [5]) (Some false))) 0 = Ok true /\
  contains_encrypted_cert (one "cp" 2 None (ok_resp (Plain [5]) (Some false))) 0 = Ok false /\
  snd (get_cert (one "cp" 2 None (ok_resp (Plain [5]) None)) 0) = Ok [5] /\
  snd (ca_pubs_field toy (one "ip" 2 (Some [[1]]) (ok_resp (Plain [5]) None)) 0 false false) = Ok tt.
Proof. repeat split. Qed.
Print Assumptions C155_ex.

(** Finding: a plain certificate is dropped by the check of the structure. *)
Theorem C155_structure_effect :
  forall m local i, snd (key_pair_structure m local i) = Ok tt ->
  fst (key_pair_structure m local i) = put_at m i (fst (read_enc (coe_of (nth_error (b_resps m) i)))).
Proof. exact structure_after. Qed.
Print Assumptions C155_structure_effect.
Theorem C155_structure_drops_refuted :
  forall m local i c, certified m i c -> snd (key_pair_structure m local i) = Ok tt -> no_pair (fst (key_pair_structure m local i)) i.
Proof.
  intros m local i c C H. rewrite (structure_after _ _ _ H). apply coe_plain in C. rewrite C. apply coe_gone. exact (put_gone m i).
Qed.
Print Assumptions C155_structure_drops_refuted.
Example C155_structure_drops_refuted_ex :
  certified (one "ip" 2 None (ok_resp (Plain [5]) None)) 0 [5] /\ snd (key_pair_structure (one "ip" 2 None (ok_resp (Plain [5]) None)) true 0) = Ok tt.
Proof. split; [|reflexivity]. eexists. split; [eexists; split; reflexivity | reflexivity]. Qed.
Print Assumptions C155_structure_drops_refuted_ex.

(** ** C156: cross certification and the confirmation by the CA *)

Theorem C156_cross :
  forall L m t kem, snd (cross_response L m t kem) = Ok tt <->
  b_name m = "ccp" /\ (exists x, t = Ok x /\ x <> "mac") /\ kem = false /\ b_extra m <> [] /\
  exists r, b_resps m = [r] /\ p_id r = 0 /\
  ((granted (p_status r) /\ p_fail r = false /\ (exists c, certified m 0 c /\ pubs_fit L m c) /\ without_key m 0) \/
   (p_status r = "rejection" /\ no_pair m 0 /\ b_pubs m = None)).
Proof. exact cross_ok. Qed.
Print Assumptions C156_cross.
Theorem C156_confirmation :
  forall conf ca extra caching req rt mac sig,
  pki_confirmation conf ca extra caching req rt mac sig = Ok tt <->
  conf = "pkiconf" /\ (extra = true \/ caching = true) /\ (ca = "ip" \/ ca = "cp" \/ ca = "rp" \/ ca = "kup") /\
  ((exists q, req = Some (Ok q) /\ ((q = "mac" /\ mac = Ok tt) \/ (q <> "mac" /\ sig = Ok tt))) \/
   (req = None /\ exists q, rt = Ok q /\ q <> "mac" /\ sig = Ok tt)).
Proof. exact confirmation_ok. Qed.
Print Assumptions C156_confirmation.
Example C156_ex :
  snd (cross_response toy {| b_name := "ccp"; b_pvno := 2; b_resps := [ok_resp (Plain [5]) None]; b_pubs := None; b_extra := [[1]] |} (Ok "sig") false) = Ok tt /\
  snd (cross_response toy (one "ccp" 2 None (ok_resp (Plain [5]) None)) (Ok "sig") false) = Err EBadMessageCheck /\
  pki_confirmation "pkiconf" "ip" false true (Some (Ok "mac")) (Ok "mac") (Ok tt) (Err EValueError) = Ok tt /\
  pki_confirmation "pkiconf" "ip" false true None (Ok "mac") (Ok tt) (Ok tt) = Err EValueError.
Proof. repeat split. Qed.
Print Assumptions C156_ex.

(** Finding: the confirmation after a cross certification is always refused. *)
Theorem C156_confirm_cross_refuted :
  forall extra caching req rt mac sig, pki_confirmation "pkiconf" "ccp" extra caching req rt mac sig <> Ok tt.
Proof. intros extra caching req rt mac sig H. apply confirmation_ok in H. destruct H as (_ & _ & H & _). intuition discriminate. Qed.
Print Assumptions C156_confirm_cross_refuted.
