(** Python's string functions on ASCII strings, as used by the modelled code (CPython, not in /repo). Characters outside
    ASCII are not modelled. *)
From Coq Require Import String Ascii NArith.
From Verif Require Import Prelude.
Open Scope Z_scope.

Definition code (c : ascii) : N := N_of_ascii c.
(** [str.isspace] of one ASCII character: tab to carriage return, the four separators 28-31, and the space. *)
Definition is_space (c : ascii) : bool :=
  ((9 <=? code c) && (code c <=? 13) || (28 <=? code c) && (code c <=? 32))%N.
Definition is_blank (c : ascii) : bool := (code c =? 32)%N.
Definition is_digit (c : ascii) : bool := ((48 <=? code c) && (code c <=? 57))%N.

Fixpoint lstrip (p : ascii -> bool) (s : string) : string :=
  match s with
  | EmptyString => EmptyString
  | String c r => if p c then lstrip p r else s
  end.
Fixpoint rstrip (p : ascii -> bool) (s : string) : string :=
  match s with
  | EmptyString => EmptyString
  | String c r => match rstrip p r with
                  | EmptyString => if p c then EmptyString else String c EmptyString
                  | t => String c t
                  end
  end.
(** [str.strip]: [strip is_space] is [s.strip()], [strip is_blank] is [s.strip(" ")]. *)
Definition strip (p : ascii -> bool) (s : string) : string := rstrip p (lstrip p s).

(** [str.split] at one character. *)
Fixpoint split (d : ascii) (s : string) : list string :=
  match s with
  | EmptyString => [EmptyString]
  | String c r => if Ascii.eqb c d then EmptyString :: split d r
                  else match split d r with
                       | h :: t => String c h :: t
                       | [] => [String c EmptyString]
                       end
  end.
(** [str.split] at two characters, from the left. *)
Fixpoint split2 (d e : ascii) (s : string) : list string :=
  match s with
  | EmptyString => [EmptyString]
  | String c r =>
      match r with
      | String c' r' =>
          if Ascii.eqb c d && Ascii.eqb c' e then EmptyString :: split2 d e r'
          else match split2 d e r with h :: t => String c h :: t | [] => [String c EmptyString] end
      | EmptyString => [String c EmptyString]
      end
  end.

(** [s.replace(d, "")] for one character. *)
Fixpoint remove (d : ascii) (s : string) : string :=
  match s with
  | EmptyString => EmptyString
  | String c r => if Ascii.eqb c d then remove d r else String c (remove d r)
  end.

Fixpoint all_chars (p : ascii -> bool) (s : string) : bool :=
  match s with EmptyString => true | String c r => p c && all_chars p r end.
Definition has_char (d : ascii) (s : string) : bool := negb (all_chars (fun c => negb (Ascii.eqb c d)) s).
(** [str.isdigit]. *)
Definition isdigit (s : string) : bool :=
  match s with EmptyString => false | _ => all_chars is_digit s end.
(** [int(s)] on a string of digits with white space around it; signs and underscores do not occur where it is used. *)
Fixpoint digits_val (acc : Z) (s : string) : Z :=
  match s with EmptyString => acc | String c r => digits_val (10 * acc + (Z.of_N (code c) - 48)) r end.
Definition int_of (s : string) : result Z :=
  let t := strip is_space s in if isdigit t then Ok (digits_val 0 t) else Err EValueError.

(** [str.upper] on ASCII. *)
Definition upper_ascii (c : ascii) : ascii :=
  if ((97 <=? code c) && (code c <=? 122))%N then ascii_of_N (code c - 32) else c.
Fixpoint upper (s : string) : string :=
  match s with EmptyString => EmptyString | String c r => String (upper_ascii c) (upper r) end.

(** [s in l] and [l.index(s)] on lists of strings. *)
Definition str_mem (s : string) (l : list string) : bool := existsb (String.eqb s) l.
Fixpoint str_index (s : string) (l : list string) : option nat :=
  match l with
  | [] => None
  | x :: r => if String.eqb s x then Some O else option_map S (str_index s r)
  end.
Fixpoint strs_eqb (a b : list string) : bool :=
  match a, b with
  | [], [] => true
  | x :: a', y :: b' => String.eqb x y && strs_eqb a' b'
  | _, _ => false
  end.

Fixpoint mapM {A B} (f : A -> result B) (l : list A) : result (list B) :=
  match l with
  | [] => Ok []
  | x :: r => let! y := f x in let! ys := mapM f r in Ok (y :: ys)
  end.
