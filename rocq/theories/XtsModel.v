(** The extensions of a new certificate, the check of a cross-signed certificate, and passwords of a fixed size
    (resources/certbuildutils.py lines 2658-2851, resources/certutils.py lines 2341-2485 and resources/utils.py lines
    1094-1149).

    Simplifications.  An extension is its type and the rest of it as a byte string; certificates and names are byte
    strings; a password is a byte string.  The checks of single extensions, the parsing of a request, the comparison of
    names, the verification of signatures and the comparison with a template are the fields of [lib] and [xlib].
    A field of a decoded pyasn1 structure that has a default has a value, and a pyasn1 structure is never equal to a
    Python byte string. *)
From Coq Require Import String.
From Verif Require Import Prelude PyStr GenModel.
Open Scope string_scope.
Open Scope Z_scope.
Open Scope list_scope.
Local Notation length := List.length.

Record ext := { e_id : string; e_rest : bytes }.
Definition has_id (id : string) (e : ext) : bool := String.eqb (e_id e) id.

(** ** Extensions of a new certificate *)

Record lib := {
  l_parse : bytes -> result (option (list ext));             (* parse_extension_and_public_key *)
  l_known : string -> bool;                                  (* in EXTENSION_OID_2_NAME *)
  l_logic : bytes -> result unit;                            (* check_logic_extensions *)
  l_usage : bytes -> result (option ext);                    (* _verify_key_usage *)
  l_ski : bytes -> result (option ext);                      (* validate_subject_key_identifier_extension *)
  l_aki : bytes -> result (option ext);                      (* _verify_authority_key_identifier *)
  l_eku : bytes -> result (option ext);                      (* _verify_extended_key_usage *)
  l_basic : bytes -> result (option ext);                    (* verify_ca_basic_constraints *)
  l_san : bytes -> result (option ext)                       (* _verify_subject_alt_name *)
}.

(** resources/certextractutils.py 118-143 (get_extension) *)
Definition get_ext (l : list ext) (id : string) : option ext := find (has_id id) l.
(** resources/certbuildutils.py 2721-2734 (extensions_contains_extn_id) *)
Definition contains_id (id : string) (l : list ext) : bool := existsb (has_id id) l.
(** resources/certbuildutils.py 2737-2751 (_get_not_included_extensions) *)
Definition not_included (v o : list ext) : list ext := filter (fun e => negb (contains_id (e_id e) v)) o.
(** resources/certbuildutils.py 2658-2671 (_contains_unknown_extensions) *)
Definition unknown_exts (L : lib) (l : list ext) : bool := existsb (fun e => negb (l_known L (e_id e))) l.

(** One of the six types, with what is found in the request; resources/certbuildutils.py 2757-2856 (check_extensions). *)
Definition one_type (o : list ext) (x : string * option ext) : list ext :=
  match snd x, get_ext o (fst x) with
  | None, None => []
  | None, Some e => [e]
  | Some e, None => [e]
  | Some e, Some _ => [e]
  end.
Definition merge (six : list (string * option ext)) (other : option (list ext)) : list ext :=
  match other with
  | None | Some [] => flat_map (fun x => match snd x with Some e => [e] | None => [] end) six
  | Some o => let v := flat_map (one_type o) six in v ++ not_included v o
  end.

(** resources/certbuildutils.py 2757-2856 (check_extensions) *)
Definition check_extensions (L : lib) (t : bytes) (other : option (list ext)) (allow_unknown : bool) : result (list ext) :=
  let! p := l_parse L t in
  let l := match p with Some l => l | None => [] end in
  let! _ := guard (negb (unknown_exts L l && negb allow_unknown)) EBadCertTemplate in
  let! _ := l_logic L t in
  let! u := l_usage L t in
  let! s := l_ski L t in
  let! a := l_aki L t in
  let! k := l_eku L t in
  let! b := l_basic L t in
  let! n := l_san L t in
  Ok (merge [("id_ce_keyUsage", u); ("id_ce_subjectKeyIdentifier", s); ("id_ce_authorityKeyIdentifier", a); ("id_ce_extKeyUsage", k);
             ("id_ce_basicConstraints", b); ("id_ce_subjectAltName", n)] other).

(** ** Cross-signed certificates *)

Record xlib := {
  x_basic : cert -> result (option bool);                    (* BasicConstraints: the field cA *)
  x_subject : cert -> bytes;
  x_issuer : cert -> bytes;
  x_same : bytes -> bytes -> bool;                           (* compare_pyasn1_names *)
  x_ski : cert -> result (option bytes);
  x_aki : cert -> result (option bytes);                     (* AuthorityKeyIdentifier: the key identifier *)
  x_key : cert -> result bytes;                              (* load_public_key_from_cert, ensure_is_verify_key *)
  x_verify : cert -> bytes -> result unit;                   (* verify_cert_signature *)
  x_exts : cert -> list ext;
  x_fits : bytes -> cert -> bool                             (* compare_cert_template_and_cert *)
}.

(** resources/certutils.py 2341-2363 (is_ca_cert): whether the field has a value, which it always has. *)
Definition is_ca (X : xlib) (c : cert) : result (option bool) :=
  let! b := x_basic X c in
  Ok (match b with None => None | Some _ => Some true end).
Definition must_be_ca (X : xlib) (c : cert) : result unit :=
  let! b := is_ca X c in
  match b with None => Err EValueError | Some b => guard b EValueError end.

(** resources/certutils.py 2366-2390 (_validate_key_identifiers): the last comparison is of bytes with a structure. *)
Definition key_identifiers (X : xlib) (c i : cert) : result unit :=
  let! s := x_ski X c in
  let! t := x_ski X i in
  let! _ := x_aki X c in
  match s, t with
  | Some s, Some t => guard (negb (bytes_eqb s t)) EValueError
  | _, _ => Err EValueError
  end.

(** resources/certutils.py 2393-2438 (_validate_cross_signed_cert) *)
Definition cross_signed (X : xlib) (c i : cert) : result unit :=
  let! _ := must_be_ca X c in
  let! _ := must_be_ca X i in
  let! _ := guard (negb (x_same X (x_subject X c) (x_issuer X c))) EValueError in
  let! _ := guard (negb (x_same X (x_subject X c) (x_subject X i))) EValueError in
  let! _ := key_identifiers X c i in
  let! k := x_key X i in
  x_verify X c k.

Definition ext_eqb (a b : ext) : bool := String.eqb (e_id a) (e_id b) && bytes_eqb (e_rest a) (e_rest b).
(** resources/certutils.py 2442-2483 (validate_ca_cross_signed_cert); [te] are the extensions of the template. *)
Definition ca_cross_signed (X : xlib) (c : cert) (t : bytes) (te : list ext) (i : cert) : result unit :=
  let! _ := cross_signed X c i in
  let! _ := guard (x_fits X t c) EValueError in
  guard (forallb (fun e => existsb (ext_eqb e) (x_exts X c)) te) EValueError.

(** ** Passwords *)

(** [p in s] for strings. *)
Fixpoint within (p s : string) : bool := prefix p s || match s with EmptyString => false | String _ s => within p s end.

(** [s * n] of Python. *)
Fixpoint times {A} (n : nat) (s : list A) : list A := match n with O => [] | Datatypes.S n => s ++ times n s end.
(** resources/utils.py 1094-1107 (expand_string_to_length) *)
Definition expand (s : bytes) (n : Z) : result bytes :=
  match s with
  | [] => Err EValueError
  | _ =>
      if n <? 0 then Err EValueError
      else Ok (firstn (Z.to_nat n) (times (Z.to_nat n / length s + 1) s))
  end.

(** resources/utils.py 1110-1149 (get_password_in_size): the password. *)
Definition password_in_size (prot : string) (pw : bytes) (hash : option string) : result bytes :=
  if String.eqb prot "kmac" then
    expand pw (match hash with Some h => if String.eqb h "shake128" then 16 else 32 | None => 32 end)
  else if within "gmac" prot then
    if within "128" prot then expand pw 16
    else if within "192" prot then expand pw 24
    else if within "256" prot then expand pw 32
    else Err EValueError
  else Ok pw.
