(** Vocabulary for the statements of HdrProperties.v.  Only the record
    accessors of HdrModel.v are used, none of its check functions. *)
From Coq Require Import String.
From Verif Require Import Prelude HdrModel.
Open Scope Z_scope.

(** Bit number [i] of a byte string that is continued with zero bytes. *)
Definition bit_at (b : bytes) (i : nat) : bool :=
  Z.testbit (nth (i / 8) b 0) (Z.of_nat (i mod 8)).

(** Number of bit positions in which two byte strings differ, up to the end of
    the longer one. *)
Definition bit_distance (a b : bytes) : Z :=
  Z.of_nat (List.length
    (filter (fun i => xorb (bit_at a i) (bit_at b i))
            (seq 0 (8 * Nat.max (List.length a) (List.length b))))).

(** The field is set to a string of [n] bytes. *)
Definition has_len (o : option bytes) (n : nat) : Prop :=
  exists b, o = Some b /\ List.length b = n.

(** The field is set to a string of at least [n] bits, whole bytes counted. *)
Definition has_bits (o : option bytes) (n : Z) : Prop :=
  exists b, o = Some b /\ n / 8 <= Z.of_nat (List.length b).

Definition set {A} (o : option A) : Prop := o <> None.

(** The same field is set, to the same value, in both messages. *)
Definition same_set {A} (a b : option A) : Prop := a = b /\ a <> None.

(** The list of values of a field, if it is set everywhere. *)
Inductive all_set {A B} (f : A -> option B) : list A -> list B -> Prop :=
| as_nil : all_set f [] []
| as_cons x l v vs : f x = Some v -> all_set f l vs -> all_set f (x :: l) (v :: vs).

Definition f_tx (m : msg) := h_tx (hdr m).
Definition f_sn (m : msg) := h_snonce (hdr m).
Definition f_rn (m : msg) := h_rnonce (hdr m).

(** The first entry of a type in generalInfo. *)
Inductive first_info (t : itype) : list (itype * ivalue) -> ivalue -> Prop :=
| fi_here v l : first_info t ((t, v) :: l) v
| fi_later t' v' l v : t' <> t -> first_info t l v -> first_info t ((t', v') :: l) v.

Definition info_in (t : itype) (m : msg) : Prop :=
  exists l v, h_ginfo (hdr m) = Some l /\ In (t, v) l.

Definition first_info_of (t : itype) (m : msg) (v : ivalue) : Prop :=
  exists l, h_ginfo (hdr m) = Some l /\ first_info t l v.

(** Which body answers a request (RFC 9483, and the keyword's documentation). *)
Inductive answer_body : bname -> bname -> Prop :=
| ab_ir : answer_body Bir Bip
| ab_cr : answer_body Bcr Bcp
| ab_kur : answer_body Bkur Bkup
| ab_p10 : answer_body Bp10cr Bcp
| ab_genm : answer_body Bgenm Bgenp
| ab_ccr : answer_body Bccr Bccp
| ab_rr : answer_body Brr Brp.

(** A single answer is acceptable, given what is said about errors:
    [None] both, [Some true] only errors, [Some false] no error. *)
Definition acceptable (error : option bool) (q r : bname) : Prop :=
  (error <> Some true /\ answer_body q r)
  \/ (error <> Some false /\ r = Berror /\ exists r', answer_body q r').

(** A response matches a request: a message with added protection is answered
    as its content; a batch by an error or by a batch of the same size whose
    entries answer one by one; everything else by its own answer. *)
Inductive answers (error : option bool) : msg -> msg -> Prop :=
| an_single q r : acceptable error (body q) (body r) -> answers error q r
| an_added h q p c r :
    body r <> Bnested -> answers error q r -> answers error (Msg h Bnested [q] p c) r
| an_batch_error q r :
    body q = Bnested -> List.length (inner q) <> 1%nat -> body r = Berror -> error <> Some false ->
    answers error q r
| an_batch h qs p c r :
    List.length qs <> 1%nat -> body r = Bnested -> all_answers error qs (inner r) ->
    answers error (Msg h Bnested qs p c) r
with all_answers (error : option bool) : list msg -> list msg -> Prop :=
| aa_nil : all_answers error [] []
| aa_cons q qs r rs : answers error q r -> all_answers error qs rs ->
    all_answers error (q :: qs) (r :: rs).

(** Entry [r] of a nested response is the reply to entry [q]: it carries the
    nonce and the transactionID of [q]. *)
Definition replies_to (q r : msg) : Prop :=
  same_set (f_sn q) (f_rn r) /\ same_set (f_tx q) (f_tx r).

(** The reply may be an error, a poll request or the answer of the type
    expected for a certificate or general request. *)
Definition reply_type (q r : bname) : Prop :=
  r = Berror \/ r = BpollReq \/
  ((q = Bir \/ q = Bcr \/ q = Bkur \/ q = Bp10cr \/ q = Bgenm) /\ answer_body q r).

(** Signature protection of any kind (including DH-based MAC, which the sender
    checks treat like a signature). *)
Definition mac_protected (m : msg) : Prop :=
  h_palg (hdr m) = Some PMac \/ h_palg (hdr m) = Some PKem.

Definition known_protection (m : msg) : Prop :=
  exists p, h_palg (hdr m) = Some p /\ p <> PUnknown.

(** Protected: algorithm and value present; unprotected: both absent. *)
Definition protected (m : msg) : Prop := set (prot m) /\ set (h_palg (hdr m)).
Definition unprotected (m : msg) : Prop := prot m = None /\ h_palg (hdr m) = None.

(** The name, written as a list of "KEY=value" items joined by commas. *)
Fixpoint join (l : list string) : string :=
  match l with
  | [] => EmptyString
  | [x] => x
  | x :: l' => (x ++ "," ++ join l')%string
  end.

(** One attribute as "KEY=value"; types without a short name are printed as None. *)
Definition item (key : Z -> option string) (a : Z * string) : string :=
  ((match key (fst a) with Some k => k | None => "None" end) ++ "=" ++ snd a)%string.

(** The certificate a message is judged by: its first extra certificate (the
    outcome for a message without any is a parameter of the environment). *)
Definition cert_for (e : env) (m : msg) (c : cert) : Prop :=
  (exists cs, certs m = Some (c :: cs)) \/ (certs m = None \/ certs m = Some []) /\ e_no_cert e = Ok c.
