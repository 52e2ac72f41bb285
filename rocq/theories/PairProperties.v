(** C112: UTF8Pairs. *)
From Coq Require Import String Ascii Lia.
From Verif Require Import Prelude PyStr CompLoadModel HdrModel ProtTab ProtModel PopModel PopSpec PairModel PairSpec PairProofs PairQuote.
Open Scope string_scope.
Open Scope Z_scope.
Open Scope list_scope.
Local Notation length := List.length.

(** The code points of an ASCII string, ASCII digits, and a decoder, for the examples. *)
Definition cps (s : string) : list Z := List.map (fun c => Z.of_nat (nat_of_ascii c)) (list_ascii_of_string s).
Definition digits (c : Z) : bool := (48 <=? c) && (c <=? 57).
Definition plain_dec (b : bytes) : option (list Z * bytes) := Some (b, []).
Definition entry (v : list Z) : control := {| ct_type := "id_regInfo_utf8Pairs"; ct_val := v |}.

(** A text is read as some pairs iff it is written Name?Value%Name?Value%..., so it is read in one way only. *)
Theorem C112_exact : forall dig s ps, dig 50 = true -> dig 51 = true -> (parse_utf8_pairs dig s = Ok ps <-> written dig s ps).
Proof. exact parse_exact. Qed.
Print Assumptions C112_exact.
(** All pairs whose names do not start with a digit can be written and are read back. *)
Theorem C112_round : forall dig ps, dig 50 = true -> dig 51 = true -> Forall (fun p => name_ok dig (fst p)) ps ->
  parse_utf8_pairs dig (write_pairs ps) = Ok ps.
Proof. intros dig ps D2 D3 N. apply parse_exact; [assumption|assumption|now apply write_written]. Qed.
Print Assumptions C112_round.
Theorem C112_quote : forall s, ((exists q, quote s = Ok q) <-> Forall scalar s) /\ forall q, quote s = Ok q -> unquote q = Ok s.
Proof. intro s. split; [apply quote_total|apply quote_round]. Qed.
Print Assumptions C112_quote.
Theorem C112_utf8 : forall s b, utf8_decode b = Some s <-> utf8_encode s = Some b.
Proof. intros s b. split; [apply (decode_inv (length b)); lia|apply utf8_round]. Qed.
Print Assumptions C112_utf8.
(** What is prepared, quoted, with all such pairs is validated to these pairs. *)
Theorem C112_prepare : forall dig dec ps l v q, dig 50 = true -> dig 51 = true ->
  Forall (fun p => name_ok dig (fst p)) ps -> the_first "id_regInfo_utf8Pairs" l v -> distinct l -> prepare_pairs (write_pairs ps) true = Ok q -> dec v = Some (q, []) ->
  validate_pairs dig dec l true = Ok (Some ps).
Proof.
  intros dig dec ps l v q D2 D3 N F D P DE. apply validate_exact; [assumption|assumption|]. right. exists v, q, (write_pairs ps), ps.
  do 3 (split; [assumption|]). split; [exact (quote_round _ _ P)|]. split; [now apply write_written|reflexivity].
Qed.
Print Assumptions C112_prepare.
Theorem C112_prepared : forall ps, Forall (fun p => Forall scalar (fst p) /\ Forall scalar (snd p)) ps -> exists q, prepare_pairs (write_pairs ps) true = Ok q.
Proof. intros ps S1. apply quote_total. now apply write_scalar. Qed.
Print Assumptions C112_prepared.
Theorem C112_validate : forall dig dec l must o, dig 50 = true -> dig 51 = true ->
  (validate_pairs dig dec l must = Ok o <->
   (no_entry "id_regInfo_utf8Pairs" l /\ must = false /\ o = None) \/
   exists v s t ps, the_first "id_regInfo_utf8Pairs" l v /\ distinct l /\ dec v = Some (s, []) /\ unquote s = Ok t /\ written dig t ps /\ o = Some ps).
Proof. exact validate_exact. Qed.
Print Assumptions C112_validate.
(** Quoting leaves the unreserved characters. *)
Theorem C112_plain : forall s, Forall (fun c => In c unreserved) s -> quote s = Ok s.
Proof. exact quote_plain. Qed.
Print Assumptions C112_plain.
(** Unquoting an ASCII text reads the escapes, in either case, as bytes and the bytes as UTF-8, and refuses anything else. *)
Theorem C112_unquoted : forall s t, Forall (fun c => 0 <= c < 128) s ->
  (unquote s = Ok t <-> exists b, pct s b /\ utf8_encode t = Some b).
Proof. exact unquote_ascii. Qed.
Print Assumptions C112_unquoted.
(** A character outside ASCII stays, between what the parts before and after it are read as. *)
Theorem C112_wide : forall x c y t, Forall (fun d => 0 <= d) (x ++ y) -> 128 <= c ->
  (unquote (x ++ c :: y) = Ok t <-> exists a b, unquote x = Ok a /\ unquote y = Ok b /\ t = a ++ c :: b).
Proof. exact unquote_wide. Qed.
Print Assumptions C112_wide.
Example C112_quote_ex : quote (cps "Az09_.-~/") = Ok (cps "Az09_.-~/") /\ unquote (cps "a%c3%BCb%zz%4") = Ok ([97; 252; 98] ++ cps "%zz%4") /\
  unquote (cps "a%c3b") = Err EValueError /\ unquote (cps "%41" ++ 8364 :: cps "%42%") = Ok (65 :: 8364 :: cps "B%").
Proof. vm_compute. repeat split. Qed.
Print Assumptions C112_quote_ex.
(** The form of RFC 4211 itself, without quoting the whole, is unquoted before it is read: an escaped value is refused or
    is read as another value, and a name that starts with two hexadecimal letters is refused. *)
Theorem C112_raw_refuted : exists dig dec ps1 ps2 ps3,
  dig 50 = true /\ dig 51 = true /\ Forall (fun p => name_ok dig (fst p)) (ps1 ++ ps2 ++ ps3) /\
  parse_utf8_pairs dig (write_pairs ps1) = Ok ps1 /\ validate_pairs dig dec [entry (write_pairs ps1)] true = Err EBadAsn1Data /\
  parse_utf8_pairs dig (write_pairs ps2) = Ok ps2 /\ (exists ps, validate_pairs dig dec [entry (write_pairs ps2)] true = Ok (Some ps) /\ ps <> ps2) /\
  parse_utf8_pairs dig (write_pairs ps3) = Ok ps3 /\ validate_pairs dig dec [entry (write_pairs ps3)] true = Err EBadAsn1Data.
Proof.
  exists digits, plain_dec, [(cps "discount", cps "100%")], [(cps "name", cps "%3f")], [(cps "mail", cps "x"); (cps "fax", cps "y")].
  do 2 (split; [reflexivity|]). split; [repeat constructor|]. do 3 (split; [vm_compute; reflexivity|]).
  split; [eexists; split; [vm_compute; reflexivity|vm_compute; discriminate]|]. split; vm_compute; reflexivity.
Qed.
Print Assumptions C112_raw_refuted.
Example C112_ex :
  let ps := [(cps "name?", [252; 8364; 128512] ++ cps " 100%"); (cps "", cps "a?b"); (cps "x", [])] in
  Forall (fun p => name_ok digits (fst p)) ps /\ Forall (fun p => Forall scalar (fst p) /\ Forall scalar (snd p)) ps /\
  (let! q := prepare_pairs (write_pairs ps) true in validate_pairs digits plain_dec [entry q] true) = Ok (Some ps) /\
  (let! q := prepare_pairs (cps "1a?b%") true in validate_pairs digits plain_dec [entry q] true) = Err EBadAsn1Data /\
  validate_pairs digits plain_dec [entry (cps "a?b%"); entry (cps "a?b%")] true = Err EBadRequest /\
  quote [55296] = Err EValueError /\
  utf8_decode [192; 128] = None /\ utf8_decode [237; 160; 128] = None /\ utf8_decode [244; 144; 128; 128] = None /\
  write_pairs ps = cps "name%3f?" ++ [252; 8364; 128512] ++ cps " 100%25%?a%3fb%x?%".
Proof.
  cbv zeta. split; [repeat constructor|]. split.
  - repeat (apply Forall_cons; [split; cbv [fst snd]; [|]; repeat (apply Forall_cons; [vm_compute; intuition (discriminate || reflexivity)|]); try apply Forall_nil|]); try apply Forall_nil.
    all: try (vm_compute; repeat (apply Forall_cons; [vm_compute; intuition (discriminate || reflexivity)|]); apply Forall_nil).
  - do 7 (split; [vm_compute; reflexivity|]). vm_compute; reflexivity.
Qed.
Print Assumptions C112_ex.
