(** Vocabulary of the properties of UTF8Pairs. *)
From Coq Require Import String Ascii.
From Verif Require Import Prelude PyStr CompLoadModel HdrModel ProtTab ProtModel PopModel PopSpec PairModel.
Open Scope string_scope.
Open Scope Z_scope.
Open Scope list_scope.
Local Notation length := List.length.

(** The two ways to write an escaped question mark and the one to write an escaped percent sign. *)
Inductive escaped : list Z -> Z -> Prop :=
| ES_question : forall f, f = 102 \/ f = 70 -> escaped [37; 51; f] 63
| ES_percent : escaped [37; 50; 53] 37.
(** A name as written and what it means. *)
Inductive written_name : list Z -> list Z -> Prop :=
| WN_end : written_name [] []
| WN_plain : forall c s n, c <> 63 -> c <> 37 -> written_name s n -> written_name (c :: s) (c :: n)
| WN_escape : forall e x s n, escaped e x -> written_name s n -> written_name (e ++ s) (x :: n).
(** A value as written and what it means. *)
Inductive written_value : list Z -> list Z -> Prop :=
| WV_end : written_value [] []
| WV_plain : forall c s v, c <> 37 -> written_value s v -> written_value (c :: s) (c :: v)
| WV_escape : forall e x s v, escaped e x -> written_value s v -> written_value (e ++ s) (x :: v).
(** Names do not start with a digit. *)
Definition name_ok (dig : Z -> bool) (n : list Z) : Prop := match n with c :: _ => dig c = false | [] => True end.
(** Name?Value%Name?Value%... *)
Inductive written (dig : Z -> bool) : list Z -> list (list Z * list Z) -> Prop :=
| WR_end : written dig [] []
| WR_pair : forall sn n sv v s ps, written_name sn n -> name_ok dig n -> written_value sv v -> written dig s ps ->
    written dig (sn ++ 63 :: sv ++ 37 :: s) ((n, v) :: ps).
(** The canonical way to write pairs. *)
Definition write_char (c : Z) : list Z := if c =? 63 then [37; 51; 102] else if c =? 37 then [37; 50; 53] else [c].
Definition write_pair (p : list Z * list Z) : list Z := flat_map write_char (fst p) ++ 63 :: flat_map write_char (snd p) ++ [37].
Definition write_pairs (ps : list (list Z * list Z)) : list Z := flat_map write_pair ps.
(** A character that can be encoded: a code point that is not a surrogate. *)
Definition scalar (c : Z) : Prop := 0 <= c < 55296 \/ 57343 < c < 1114112.

(** ** Quoting *)

(** A hexadecimal digit, of either case, and its value. *)
Definition hex_of (c n : Z) : Prop :=
  (48 <= c <= 57 /\ n = c - 48) \/ (65 <= c <= 70 /\ n = c - 55) \/ (97 <= c <= 102 /\ n = c - 87).
(** Percent encoding: an escape is a byte, everything else stays. *)
Inductive pct : list Z -> list Z -> Prop :=
| PC_end : pct [] []
| PC_escape : forall a b x y s r, hex_of a x -> hex_of b y -> pct s r -> pct (37 :: a :: b :: s) (16 * x + y :: r)
| PC_plain : forall c s r, c <> 37 -> pct s r -> pct (c :: s) (c :: r)
| PC_lone : forall s r, (forall a b t x y, s = a :: b :: t -> hex_of a x -> hex_of b y -> False) -> pct s r -> pct (37 :: s) (37 :: r).
(** The characters that need no quoting. *)
Definition unreserved : list Z :=
  map (fun a => Z.of_nat (nat_of_ascii a))
      (list_ascii_of_string "ABCDEFGHIJKLMNOPQRSTUVWXYZabcdefghijklmnopqrstuvwxyz0123456789_.-~/").
