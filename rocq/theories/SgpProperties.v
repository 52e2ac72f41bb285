(** The check of a signed PKIMessage: C167. *)
From Coq Require Import String.
From Verif Require Import Prelude PreludeFacts PyStr HdrModel SgpModel SgpSpec SgpProofs.
Open Scope string_scope.
Open Scope Z_scope.
Open Scope list_scope.

(** ** A library for the examples; not a model of any code in /repo *)

Definition nm (b : Z) : name := {| n_der := [b]; n_attrs := [] |}.
Definition ct (b : Z) (ski : option bytes) : cert := {| c_subject := nm b; c_ski := ski |}.
Definition ms (sender : gname) (kid : option bytes) (sig : option bytes) (cs : option (list cert)) : msg :=
  Msg {| h_pvno := 2; h_sender := sender; h_recipient := sender; h_time := None; h_palg := Some PTradSig; h_kid := kid; h_tx := None; h_snonce := None; h_rnonce := None; h_ginfo := None |}
      Bir [] sig cs.
(** A signature is the byte of the subject, or with RSASSA-PSS this byte after a zero. *)
Definition toy : lib :=
  {| s_encode := fun _ => Ok [1]; s_known := fun _ => Ok true; s_algfield := fun _ => Ok tt; s_hash := fun _ => Ok (Some "sha256");
     s_verify := fun c _ s _ pss => guard (bytes_eqb s (if pss : bool then 0 :: n_der (c_subject c) else n_der (c_subject c))) EInvalidSignature;
     s_protection := fun _ => Ok tt |}.
Definition toyE : env :=
  {| e_now := 0; e_dec_time := fun _ => None; e_utf8 := fun _ => None; e_attr_key := fun _ => None; e_cn := 0; e_no_cert := Err EIndexError |}.

(** ** C167 *)

(** Accepted iff the algorithm is a known one, its field is right, the sender and senderKID are those of the first
    certificate, and this certificate verifies the signature. *)
Theorem C167_accepted :
  forall L e m p c l allow kid, h_palg (hdr m) = Some p -> signature_type p -> certs m = Some (c :: l) ->
  (check_signed L e m allow kid = Ok tt <->
   s_known L m = Ok true /\ s_algfield L m = Ok tt /\ comparable (h_sender (hdr m)) /\ (allow = true \/ sender_named e m c) /\ (kid = true -> kid_fits m c) /\
   signed_by L m c false /\ s_protection L m = Ok tt).
Proof. exact signed_iff. Qed.
Print Assumptions C167_accepted.
(** Whatever the message: an accepted one has certificates, and the first of them verifies it. *)
Theorem C167_first :
  forall L e m allow kid, check_signed L e m allow kid = Ok tt ->
  exists c l, certs m = Some (c :: l) /\ signed_by L m c false /\ s_known L m = Ok true /\ s_protection L m = Ok tt.
Proof. exact signed_needs. Qed.
Print Assumptions C167_first.
(** A certificate at another position does not count. *)
Theorem C167_position :
  forall L e m c l allow kid, certs m = Some (c :: l) -> ~ signed_by L m c false -> check_signed L e m allow kid <> Ok tt.
Proof. intros L e m c l allow kid Ce N H. apply signed_needs in H. destruct H as (c' & l' & E & S' & _). rewrite Ce in E. injection E as <- <-. exact (N S'). Qed.
Print Assumptions C167_position.
Example C167_case :
  signature_type PTradSig
  /\ check_signed toy toyE (ms (GDir (nm 7)) (Some [3]) (Some [7]) (Some [ct 7 (Some [3]); ct 8 None])) false true = Ok tt
  /\ check_signed toy toyE (ms (GDir (nm 7)) (Some [4]) (Some [7]) (Some [ct 7 (Some [3]); ct 8 None])) false true = Err EBadMessageCheck
  /\ check_signed toy toyE (ms (GDir (nm 6)) (Some [3]) (Some [7]) (Some [ct 7 (Some [3])])) false true = Err EBadMessageCheck
  /\ check_signed toy toyE (ms (GDir (nm 7)) (Some [3]) (Some [8]) (Some [ct 7 (Some [3]); ct 8 None])) false true = Err EBadMessageCheck
  /\ check_signed toy toyE (ms (GDir (nm 7)) (Some [3]) (Some [7]) None) true true = Err EBadMessageCheck
  /\ check_signed toy toyE (ms (GDir (nm 7)) None (Some [7]) (Some [ct 7 None])) true false = Ok tt.
Proof. split; [repeat split; discriminate|]. repeat split; reflexivity. Qed.
Print Assumptions C167_case.

(** Refuted: that a message that is signed with RSASSA-PSS, an algorithm of the table, can pass.  The search for the
    certificate does not use this padding, so it is refused although the protection verifies. *)
Theorem C167_pss_refuted :
  (forall L e m allow kid, (forall c, ~ signed_by L m c false) -> check_signed L e m allow kid <> Ok tt) /\
  exists L e m c, certs m = Some [c] /\ signed_by L m c true /\ s_protection L m = Ok tt /\ s_known L m = Ok true /\ sender_named e m c /\ kid_fits m c /\
  forall allow kid, check_signed L e m allow kid = Err EBadMessageCheck.
Proof.
  split.
  - intros L e m allow kid N H. apply signed_needs in H. destruct H as (c & l & _ & S' & _). exact (N c S').
  - exists toy, toyE, (ms (GDir (nm 7)) (Some [3]) (Some [0; 7]) (Some [ct 7 (Some [3])])), (ct 7 (Some [3])).
    split; [reflexivity|]. split; [exists [0; 7], [1], (Some "sha256"); repeat split|]. split; [reflexivity|]. split; [reflexivity|]. split; [left; exists (nm 7); split; reflexivity|].
    split; [exists [3]; split; [reflexivity | now right]|]. intros [] []; reflexivity.
Qed.
Print Assumptions C167_pss_refuted.
(** Refuted: that the sender of an accepted message is the subject of the certificate: with the default any name passes. *)
Theorem C167_sender_refuted :
  forall L e h h' b i p cs c l t,
  h_palg h = Some t -> h_palg h' = Some t -> signature_type t -> cs = Some (c :: l) -> (exists n, h_sender h = GDir n) -> (exists n, h_sender h' = GDir n) -> h_kid h = h_kid h' ->
  s_known L (Msg h' b i p cs) = Ok true -> s_algfield L (Msg h' b i p cs) = Ok tt -> signed_by L (Msg h' b i p cs) c false -> s_protection L (Msg h' b i p cs) = Ok tt ->
  check_signed L e (Msg h b i p cs) true true = Ok tt -> check_signed L e (Msg h' b i p cs) true true = Ok tt.
Proof.
  intros L e h h' b i p cs c l t P P' T Ce D D' K A1 A2 A3 A4 H.
  apply (signed_iff L e (Msg h b i p cs) t c l true true P T Ce) in H. destruct H as (_ & _ & _ & _ & Kd & _).
  apply (signed_iff L e (Msg h' b i p cs) t c l true true P' T Ce). split; [exact A1|]. split; [exact A2|]. split; [now left|]. split; [now left|]. split; [|auto].
  intros _. destruct (Kd eq_refl) as (k & Ek & F). exists k. split; [|exact F]. cbn [hdr] in *. congruence.
Qed.
Print Assumptions C167_sender_refuted.
Example C167_sender_case :
  check_signed toy toyE (ms (GDir (nm 99)) (Some [3]) (Some [7]) (Some [ct 7 (Some [3])])) true true = Ok tt
  /\ ~ sender_named toyE (ms (GDir (nm 99)) (Some [3]) (Some [7]) (Some [ct 7 (Some [3])])) (ct 7 (Some [3])).
Proof. split; [reflexivity|]. intros [(n & N & D)|(s & N & D)]; cbn in N; [|discriminate]. injection N as <-. discriminate. Qed.
Print Assumptions C167_sender_case.
