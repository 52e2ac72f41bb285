(** Model of the UTF8Pairs registration info (resources/cmputils.py) and of what it uses of urllib.parse. A Python string
    is the list of its code points. *)
From Coq Require Import String Ascii.
From Verif Require Import Prelude PyStr CompLoadModel HdrModel ProtTab ProtModel PopModel.
Open Scope string_scope.
Open Scope Z_scope.
Open Scope list_scope.
Local Notation length := List.length.

(** ** UTF-8 *)

(** Models str.encode("utf-8") for a character; surrogates cannot be encoded. *)
Definition utf8_char (c : Z) : option bytes :=
  if c <? 0 then None
  else if c <? 128 then Some [c]
  else if c <? 2048 then Some [192 + c / 64; 128 + c mod 64]
  else if c <? 65536 then
    if (55296 <=? c) && (c <=? 57343) then None
    else Some [224 + c / 4096; 128 + c / 64 mod 64; 128 + c mod 64]
  else if c <? 1114112 then Some [240 + c / 262144; 128 + c / 4096 mod 64; 128 + c / 64 mod 64; 128 + c mod 64]
  else None.
Fixpoint utf8_encode (s : list Z) : option bytes :=
  match s with
  | [] => Some []
  | c :: r => match utf8_char c, utf8_encode r with Some a, Some b => Some (a ++ b) | _, _ => None end
  end.
(** A continuation byte. *)
Definition cont (b : Z) : bool := (128 <=? b) && (b <=? 191).
(** Models bytes.decode("utf-8", "strict"): overlong forms, surrogates and values above 0x10FFFF are refused. *)
Fixpoint utf8_decode (b : bytes) : option (list Z) :=
  match b with
  | [] => Some []
  | b0 :: r =>
      if (0 <=? b0) && (b0 <? 128) then option_map (cons b0) (utf8_decode r)
      else if (194 <=? b0) && (b0 <=? 223) then
        match r with
        | b1 :: r1 => if cont b1 then option_map (cons ((b0 - 192) * 64 + (b1 - 128))) (utf8_decode r1) else None
        | [] => None
        end
      else if (224 <=? b0) && (b0 <=? 239) then
        match r with
        | b1 :: b2 :: r2 =>
            let c := (b0 - 224) * 4096 + (b1 - 128) * 64 + (b2 - 128) in
            if cont b1 && cont b2 && (2048 <=? c) && negb ((55296 <=? c) && (c <=? 57343))
            then option_map (cons c) (utf8_decode r2) else None
        | _ => None
        end
      else if (240 <=? b0) && (b0 <=? 244) then
        match r with
        | b1 :: b2 :: b3 :: r3 =>
            let c := (b0 - 240) * 262144 + (b1 - 128) * 4096 + (b2 - 128) * 64 + (b3 - 128) in
            if cont b1 && cont b2 && cont b3 && (65536 <=? c) && (c <? 1114112)
            then option_map (cons c) (utf8_decode r3) else None
        | _ => None
        end
      else None
  end.

(** ** Quoting *)

Definition percent : Z := 37.
Definition question : Z := 63.
Definition hex_digit (n : Z) : Z := if n <? 10 then 48 + n else 55 + n.
Definition hex_value (c : Z) : option Z :=
  if (48 <=? c) && (c <=? 57) then Some (c - 48)
  else if (65 <=? c) && (c <=? 70) then Some (c - 55)
  else if (97 <=? c) && (c <=? 102) then Some (c - 87)
  else None.
(** The characters urllib.parse.quote keeps: letters, digits, "_.-~" and "/". *)
Definition safe (b : Z) : bool :=
  ((48 <=? b) && (b <=? 57)) || ((65 <=? b) && (b <=? 90)) || ((97 <=? b) && (b <=? 122)) ||
  (b =? 95) || (b =? 46) || (b =? 45) || (b =? 126) || (b =? 47).
Definition quote_byte (b : Z) : list Z := if safe b then [b] else [percent; hex_digit (b / 16); hex_digit (b mod 16)].
(** Models urllib.parse.quote, as called at resources/cmputils.py 1615. *)
Definition quote (s : list Z) : result (list Z) :=
  match utf8_encode s with Some b => Ok (flat_map quote_byte b) | None => Err EValueError end.
(** Models urllib.parse.unquote_to_bytes for ASCII characters. *)
Fixpoint unquote_bytes (s : list Z) : bytes :=
  match s with
  | [] => []
  | c :: r =>
      if c =? percent then
        match r with
        | a :: b :: r' => match hex_value a, hex_value b with Some x, Some y => (16 * x + y) :: unquote_bytes r' | _, _ => c :: unquote_bytes r end
        | _ => c :: unquote_bytes r
        end
      else c :: unquote_bytes r
  end.
Definition flush (run : list Z) : result (list Z) := match utf8_decode (unquote_bytes run) with Some x => Ok x | None => Err EValueError end.
(** Models the loop of urllib.parse.unquote over the runs of ASCII characters; [run] is the run so far. *)
Fixpoint unquote_from (run s : list Z) : result (list Z) :=
  match s with
  | [] => flush run
  | c :: r =>
      if c <? 128 then unquote_from (run ++ [c]) r
      else let! a := flush run in let! b := unquote_from [] r in Ok (a ++ c :: b)
  end.
(** Models urllib.parse.unquote with strict UTF-8, as called at resources/cmputils.py 1742. *)
Definition unquote (s : list Z) : result (list Z) := if existsb (Z.eqb percent) s then unquote_from [] s else Ok s.

(** ** Pairs *)

(** The escape sequences of the parser (after lower()). *)
Definition escape (a b : Z) : option Z :=
  if (a =? 51) && ((b =? 102) || (b =? 70)) then Some question else if (a =? 50) && (b =? 53) then Some percent else None.
(** Models resources/cmputils.py 1642-1667 (the name in _parse_utf8_pairs): the name and what is left. *)
Fixpoint parse_name (s : list Z) : result (list Z * list Z) :=
  match s with
  | [] => Err EValueError
  | c :: r =>
      if c =? question then Ok ([], r)
      else if c =? percent then
        match r with
        | a :: b :: r' =>
            match escape a b with
            | Some x => let! (n, t) := parse_name r' in Ok (x :: n, t)
            | None => Err EValueError
            end
        | _ => Err EValueError
        end
      else let! (n, t) := parse_name r in Ok (c :: n, t)
  end.
(** Models resources/cmputils.py 1674-1693 (the value in _parse_utf8_pairs). *)
Fixpoint parse_value (s : list Z) : result (list Z * list Z) :=
  match s with
  | [] => Err EValueError
  | c :: r =>
      if c =? percent then
        match r with
        | a :: b :: r' =>
            match escape a b with
            | Some x => let! (v, t) := parse_value r' in Ok (x :: v, t)
            | None => Ok ([], r)
            end
        | _ => Ok ([], r)
        end
      else let! (v, t) := parse_value r in Ok (c :: v, t)
  end.
(** Models resources/cmputils.py 1625-1698 (_parse_utf8_pairs). [dig] is str.isdigit for one character; the first argument
    bounds the number of rounds. *)
Fixpoint parse_pairs (n : nat) (dig : Z -> bool) (s : list Z) : result (list (list Z * list Z)) :=
  match s, n with
  | [], _ => Ok []
  | _, O => Err EValueError
  | _, S n' =>
      let! (name, r) := parse_name s in
      let! _ := guard (match name with c :: _ => negb (dig c) | [] => true end) EValueError in
      let! (value, r') := parse_value r in
      let! ps := parse_pairs n' dig r' in
      Ok ((name, value) :: ps)
  end.
Definition parse_utf8_pairs (dig : Z -> bool) (s : list Z) : result (list (list Z * list Z)) := parse_pairs (length s) dig s.

(** Models resources/cmputils.py 1569-1622 (prepare_utf8_pairs_req_info): the text of the UTF8Pairs. *)
Definition prepare_pairs (data : list Z) (encode : bool) : result (list Z) := if encode then quote data else Ok data.
(** Models resources/cmputils.py 1702-1749 (validate_reg_info_utf8_pairs). [dec] decodes an ASN.1 UTF8String. *)
Definition validate_pairs (dig : Z -> bool) (dec : bytes -> option (list Z * bytes)) (l : list control) (must : bool)
  : result (option (list (list Z * list Z))) :=
  match first_of "id_regInfo_utf8Pairs" l with
  | None => if must then Err EValueError else Ok None
  | Some der =>
      let! _ := guard (unique_types l) EBadRequest in
      match dec der with
      | None => Err EPyAsn1
      | Some (_, _ :: _) => Err EBadAsn1Data
      | Some (s, []) =>
          match (let! t := unquote s in parse_utf8_pairs dig t) with
          | Ok ps => Ok (Some ps)
          | Err _ => Err EBadAsn1Data
          end
      end
  end.
