(** Vocabulary of the statements on named bit strings, key usage and status. *)
From Coq Require Import String Ascii NArith DecimalString.
From Verif Require Import Prelude PyStr BitModel.
Local Notation length := List.length.

(** ** Bits and their names *)
(** Bit [i] of [x] is set; it is the only one that is. *)
Definition is_set (x : list bool) (i : nat) : Prop := nth_error x i = Some true.
Definition only_set (x : list bool) (i : nat) : Prop := is_set x i /\ forall j, is_set x j -> j = i.
(** The bit called [n] is set. *)
Definition named_set (names : list string) (x : list bool) (n : string) : Prop :=
  exists i, nth_error names i = Some n /\ is_set x i.
Definition only_named (names : list string) (x : list bool) (n : string) : Prop :=
  exists i, nth_error names i = Some n /\ only_set x i.
(** The names of the set bits in the order of the bits. *)
Definition names_set (names : list string) (x : list bool) : list string :=
  map fst (filter snd (combine names x)).

(** The bit string with the bits [x]. *)
Definition bits (names : list string) (x : list bool) : bitstr := {| b_names := names; b_val := Some x |}.

(** A name: a letter followed by letters and digits. *)
Definition is_letter (c : ascii) : bool :=
  (((65 <=? code c) && (code c <=? 90)) || ((97 <=? code c) && (code c <=? 122)))%N.
Definition is_name (n : string) : bool :=
  match n with
  | EmptyString => false
  | String c r => is_letter c && all_chars (fun d => is_letter d || is_digit d) r
  end.
Definition good_names (names : list string) : Prop := NoDup names /\ Forall (fun n => is_name n = true) names.

(** ** Comma-separated lists *)
(** [s] lists [ns] separated by commas, each name with characters of the class [p] around it. *)
Definition padded (p : ascii -> bool) (q n : string) : Prop :=
  exists a b, all_chars p a = true /\ all_chars p b = true /\ q = (a ++ n ++ b)%string.
Definition lists (p : ascii -> bool) (s : string) (ns : list string) : Prop :=
  ns <> [] /\ exists parts, s = String.concat "," parts /\ Forall2 (padded p) parts ns.
(** The decimal form of a number. *)
Definition dec (i : nat) : string := NilZero.string_of_uint (Nat.to_uint i).

(** ** Key usage *)
Definition level (s : strictness) : Z := (match s with NONE => 0 | LAX => 1 | STRICT => 2 | ABS_STRICT => 3 end)%Z.
Definition label (s : strictness) : string :=
  (match s with NONE => "NONE" | LAX => "LAX" | STRICT => "STRICT" | ABS_STRICT => "ABS_STRICT" end)%string.
(** The key usage [n] is allowed by the bits [x]. *)
Definition allows (x : list bool) (n : string) : Prop := named_set KU_NAMES x n.
(** What each strictness asks of a key usage extension for the usages [ns]. *)
Definition usage_ok (s : strictness) (usage : option (list bool)) (ns : list string) : Prop :=
  match s, usage with
  | NONE, _ => True
  | LAX, None => True
  | _, None => False
  | ABS_STRICT, Some x => forall n, In n ns <-> allows x n
  | _, Some x => forall n, In n ns -> allows x n
  end.
(** The OID of a CMP extended key usage. *)
Definition eku_oid (n : string) (o : oid) : Prop :=
  (n = "cmcCA"%string /\ o = [1;3;6;1;5;5;7;3;27]%Z) \/ (n = "cmcRA"%string /\ o = [1;3;6;1;5;5;7;3;28]%Z) \/
  (n = "cmKGA"%string /\ o = [1;3;6;1;5;5;7;3;32]%Z).
Definition THREE : list string := ["cmcCA"; "cmcRA"; "cmKGA"]%string.
Definition eku_ok (s : strictness) (eku : option (list oid)) (ns : list string) : Prop :=
  match s, eku with
  | NONE, _ => True
  | LAX, None => True
  | _, None => False
  | ABS_STRICT, Some l => forall o, In o l <-> exists n, In n ns /\ eku_oid n o
  | _, Some l => forall n o, In n ns -> eku_oid n o -> In o l
  end.

(** ** Requests *)
(** The usages [x] fit the key of a request. *)
Definition sig_fit (x : list bool) : Prop :=
  (exists n, allows x n) /\
  forall n, allows x n -> In n ["digitalSignature"; "nonRepudiation"; "keyCertSign"; "cRLSign"]%string.
Definition usages_fit (key : req_key) (x : list bool) : Prop :=
  match key with
  | RNamedKem => forall n, allows x n <-> n = "keyEncipherment"%string
  | RNamedSig => sig_fit x
  | RNamedOther => False
  | RTrad n =>
      (In n ["ed448"; "ed25519"; "dsa"]%string /\ sig_fit x) \/
      (n = "ecdsa"%string /\
       forall u, In u ["keyEncipherment"; "dataEncipherment"; "encipherOnly"; "decipherOnly"]%string -> ~ allows x u) \/
      n = "rsa"%string \/
      (In n ["x25519"; "x448"]%string /\ forall u, allows x u -> u = "keyAgreement"%string)
  end.
(** The kinds of keys with a rule. *)
Definition has_rule (key : req_key) : Prop :=
  match key with
  | RNamedOther => False
  | RTrad n => In n ["ed448"; "ed25519"; "dsa"; "ecdsa"; "rsa"; "x25519"; "x448"]%string
  | _ => True
  end.

(** ** Status *)
(** The values of the names are their positions. *)
Definition numbered (named : list (string * Z)) : Prop :=
  forall i p, nth_error named i = Some p -> snd p = Z.of_nat i.
(** The message bodies with a status. *)
Definition BODIES : list string := ["error"; "rp"; "ip"; "cp"; "kup"; "ccp"; "certConf"]%string.
