(** Model of named bit strings and named integers (resources/asn1utils.py), of the checks of key usage and extended key
    usage (resources/certutils.py, resources/certbuildutils.py, resources/ca_ra_utils.py,
    pq_logic/hybrid_sig/cert_binding_for_multi_auth.py) and of the status checks (resources/cmputils.py,
    resources/checkutils.py). *)
From Coq Require Import String Ascii.
From Verif Require Import Prelude PyStr.
From Verif Require CompLoadModel.
Local Notation length := List.length.
Local Open Scope string_scope.
Local Open Scope Z_scope.
Local Notation COMMA := ","%char.
Local Notation SPC := " "%char.

(** ** Named bit strings *)
(** A pyasn1 BitString: the names of its bits, bit [i] under the [i]-th name (KeyUsage and PKIFailureInfo number their
    bits from 0 without gaps), and its bits, [None] for an object without value. *)
Record bitstr := { b_names : list string; b_val : option (list bool) }.

(** Python's [x[i]] with its negative indices; [None] is IndexError. *)
Definition py_nth (x : list bool) (i : Z) : option bool :=
  let n := Z.of_nat (length x) in
  if (0 <=? i) then nth_error x (Z.to_nat i)
  else if (- n <=? i) then nth_error x (Z.to_nat (n + i)) else None.
Definition count_set (x : list bool) : nat := length (filter (fun b => b) x).

(** resources/asn1utils.py 407-431 (_is_bit_set_in_bitstring). *)
Definition is_bit_set_in_bitstring (x : list bool) (i : Z) (exclusive : bool) : bool :=
  match py_nth x i with
  | Some true => if exclusive then Nat.eqb (count_set x) 1 else true
  | _ => false
  end.

(** resources/asn1utils.py 434-452 (_is_either_bit_set_in_bitstring). *)
Definition is_either_bit_set (x : list bool) (l : list Z) (exclusive : bool) : bool :=
  existsb (fun i => is_bit_set_in_bitstring x i exclusive) l.

(** resources/asn1utils.py 561-575 (get_set_bitstring_names): [asBinary] of an empty bit string is "0". *)
Fixpoint set_names_from (names : list string) (x : list bool) : list string :=
  match names, x with
  | n :: names', b :: x' => ((if b then [n] else []) ++ set_names_from names' x')%list
  | _, _ => []
  end.
Definition as_binary (x : list bool) : list bool := match x with [] => [false] | _ => x end.
Definition get_set_bitstring_names (b : bitstr) : result string :=
  match b_val b with
  | None => Err EPyAsn1
  | Some x => Ok (String.concat ", " (set_names_from (b_names b) (as_binary x)))
  end.

(** The second argument of [is_bit_set]: an int, a str or anything else. *)
Inductive bit_arg := AInt (i : Z) | AStr (s : string) | AOther.

Definition name_index (names : list string) (n : string) : result Z :=
  match str_index n names with Some i => Ok (Z.of_nat i) | None => Err EValueError end.

(** resources/asn1utils.py 455-535 (is_bit_set). *)
Definition is_bit_set (b : bitstr) (a : bit_arg) (exclusive : bool) : result bool :=
  match b_val b with
  | None => Err EValueError
  | Some x =>
    match a with
    | AInt i => Ok (is_bit_set_in_bitstring x i exclusive)
    | AStr s =>
        if isdigit (strip is_blank (remove COMMA s)) then
          if has_char COMMA s then
            let! values := mapM int_of (split COMMA (strip is_blank s)) in
            Ok (is_either_bit_set x values exclusive)
          else
            let! i := int_of (strip is_space s) in
            Ok (is_bit_set_in_bitstring x i exclusive)
        else
          let values := split COMMA (strip is_blank s) in
          let names := b_names b in
          let! joined := get_set_bitstring_names b in
          let all_set_names := split2 COMMA SPC joined in
          let! indices := mapM (fun v => name_index names (strip is_space v)) values in
          if strs_eqb all_set_names values && negb exclusive then Ok true
          else if strs_eqb all_set_names values && exclusive then Ok true
          else if strs_eqb all_set_names names && exclusive then Err EValueError
          else Ok (is_either_bit_set x indices exclusive)
    | AOther => Err EValueError
    end
  end.

Fixpoint set_nth (i : nat) (l : list bool) : list bool :=
  match l, i with
  | [], _ => []
  | _ :: r, O => true :: r
  | b :: r, S j => b :: set_nth j r
  end.
Fixpoint drop_false (l : list bool) : list bool :=
  match l with false :: r => drop_false r | _ => l end.

(** resources/asn1utils.py 579-602 (asn1_names_to_bitstring). *)
Fixpoint set_values (names : list string) (l : list bool) (values : list string) : result (list bool) :=
  match values with
  | [] => Ok l
  | v :: r => match str_index (strip is_space v) names with
              | None => Err EValueError
              | Some i => set_values names (set_nth i l) r
              end
  end.
Definition asn1_names_to_bitstring (names : list string) (s : string) : result bitstr :=
  let! l := set_values names (repeat false (length names + 1)) (split COMMA (strip is_blank s)) in
  Ok {| b_names := names; b_val := Some (rev (drop_false (rev l))) |}.

(** pyasn1 (not in /repo): a BitString built from a string of names, "" or binary digits. The forms in quotes and those
    starting with 0x and 0b are not modelled (EPyAsn1 here). *)
Definition max_list (l : list nat) : nat := fold_right Nat.max O l.
Definition bin_digits (s : string) : result (list bool) :=
  mapM (fun c => if Ascii.eqb c "0" then Ok false else if Ascii.eqb c "1" then Ok true else Err EValueError)
       (list_ascii_of_string s).
Definition bitstr_of (names : list string) (s : string) : result bitstr :=
  match s with
  | EmptyString => Ok {| b_names := names; b_val := Some [] |}
  | _ =>
    if isdigit s then let! x := bin_digits s in Ok {| b_names := names; b_val := Some x |}
    else
      let! ps := mapM (fun v => match str_index (strip is_space v) names with Some i => Ok i | None => Err EPyAsn1 end)
                      (split COMMA s) in
      Ok {| b_names := names;
            b_val := Some (map (fun i => existsb (Nat.eqb i) ps) (seq 0 (max_list ps + 1))) |}
  end.

(** ** Named integers *)
(** resources/asn1utils.py 628-641 (asn1_compare_named_integer): the position of the name is compared. *)
Definition asn1_compare_named_integer (named : list (string * Z)) (v : Z) (value : string) : result bool :=
  let names := map fst named in
  if str_mem value names then
    match str_index (strip is_blank value) names with
    | Some i => Ok (Z.of_nat i =? v)
    | None => Err EValueError
    end
  else Err EValueError.

(** What [asn1_compare_named_values] is called with: a bit string or a named integer with its value (an Enumerated is
    one too); other types are not modelled. *)
Inductive named_obj := NBits (b : bitstr) | NInt (named : list (string * Z)) (v : Z).

(** resources/asn1utils.py 644-710 (asn1_compare_named_values) without [query]. *)
Definition asn1_compare_named_values (o : named_obj) (values : string) (exclusive raise_exception : bool)
  : result bool :=
  let! res :=
    match o with
    | NBits b => is_bit_set b (AStr values) exclusive
    | NInt named v =>
        let! tmp := mapM (fun x => asn1_compare_named_integer named v (strip is_blank x))
                         (split COMMA (strip is_blank values)) in
        Ok (if Nat.eqb (count_set tmp) 0 then false else exclusive)
    end in
  if negb res && raise_exception then Err EValueError else Ok res.

(** ** Key usage *)
(** rfc5280.KeyUsage (pyasn1, not in /repo); the same names are at resources/certbuildutils.py 2298-2308. *)
Definition KU_NAMES : list string :=
  ["digitalSignature"; "nonRepudiation"; "keyEncipherment"; "dataEncipherment"; "keyAgreement"; "keyCertSign";
   "cRLSign"; "encipherOnly"; "decipherOnly"].

(** resources/suiteenums.py 80-113 (KeyUsageStrictness). *)
Inductive strictness := NONE | LAX | STRICT | ABS_STRICT.
Inductive str_or_int := VStr (s : string) | VInt (i : Z).
Definition strictness_of_int (i : Z) : result strictness :=
  if i =? 0 then Ok NONE else if i =? 1 then Ok LAX else if i =? 2 then Ok STRICT else if i =? 3 then Ok ABS_STRICT
  else Err EValueError.
Definition strictness_get (v : str_or_int) : result strictness :=
  match v with
  | VStr s =>
      if isdigit s then strictness_of_int (digits_val 0 s)
      else
        let u := upper s in
        if String.eqb u "NONE" then Ok NONE else if String.eqb u "LAX" then Ok LAX
        else if String.eqb u "STRICT" then Ok STRICT else if String.eqb u "ABS_STRICT" then Ok ABS_STRICT
        else Err EValueError
  | VInt i => strictness_of_int i
  end.

(** resources/certutils.py 592-613 (_validate_key_usage). *)
Definition check_key_usage (expected : string) (given : bitstr) (same_vals : bool) : result bool :=
  let! names := get_set_bitstring_names given in
  if same_vals then
    let! e := bitstr_of KU_NAMES expected in
    let! expected_names := get_set_bitstring_names e in
    Ok (String.eqb names expected_names)
  else
    let vals := map (strip is_space) (split COMMA expected) in
    let! tests := mapM (fun x => is_bit_set given (AStr x) false) vals in
    Ok (Nat.eqb (length vals) (count_set tests)).

(** A certificate, as far as these checks read it: the bits of its key usage extension and the OIDs of its extended key
    usage extension (an OID is a list of arcs), [None] without the extension. *)
Definition oid := list Z.
Record kcert := { k_usage : option (list bool); k_eku : option (list oid) }.
Definition ku (x : list bool) : bitstr := {| b_names := KU_NAMES; b_val := Some x |}.

(** resources/certutils.py 617-668 (validate_key_usage). *)
Definition validate_key_usage (c : kcert) (key_usages : string) (s : str_or_int) : result unit :=
  let! st := strictness_get s in
  match st with
  | NONE => Ok tt
  | _ =>
    match k_usage c with
    | None => match st with LAX => Ok tt | _ => Err EBadKeyUsage end
    | Some x =>
        let same := match st with ABS_STRICT => true | _ => false end in
        let! r := check_key_usage key_usages (ku x) same in
        if r then Ok tt else Err EBadKeyUsage
    end
  end.

(** resources/certutils.py 672-704 (must_not_contain_key_usage). *)
Definition must_not_contain_key_usage (c : kcert) (key_usages : string) (must_be_present : bool) : result unit :=
  match k_usage c with
  | None => if must_be_present then Err EBadKeyUsage else Ok tt
  | Some x => let! r := check_key_usage key_usages (ku x) false in if r then Err EBadKeyUsage else Ok tt
  end.

(** resources/certbuildutils.py 709-755 (prepare_key_usage_extension) with [invalid_data] and [add_trailing_data] unset:
    the bits of the extension and its criticality. *)
Definition prepare_key_usage_extension (key_usage : string) (critical : bool) : result (list bool * bool) :=
  match bitstr_of KU_NAMES key_usage with
  | Err EPyAsn1 => Err EValueError
  | Err e => Err e
  | Ok b => Ok (match b_val b with Some x => x | None => [] end, critical)
  end.

(** ** Extended key usage *)
(** resources/oidutils.py 79 (CMP_EKU_OID_2_NAME) with the OIDs of RFC 9480 (1.3.6.1.5.5.7.3.32, .28 and .27). *)
Definition CM_KGA : oid := [1;3;6;1;5;5;7;3;32].
Definition CMC_RA : oid := [1;3;6;1;5;5;7;3;28].
Definition CMC_CA : oid := [1;3;6;1;5;5;7;3;27].
Definition CMP_EKU : list (oid * string) := [(CM_KGA, "cmKGA"); (CMC_RA, "cmcRA"); (CMC_CA, "cmcCA")].

(** resources/certutils.py 563-568 and resources/certbuildutils.py 847-853: the OIDs named. *)
Definition expected_eku (ext_key_usages : string) : result (list oid) :=
  let allowed := split COMMA (strip is_blank ext_key_usages) in
  let not_inside := existsb (fun n => negb (str_mem n ["cmcCA"; "cmcRA"; "cmKGA"])) allowed in
  let expected := map fst (filter (fun p => str_mem (snd p) allowed) CMP_EKU) in
  match expected, not_inside with
  | _ :: _, false => Ok expected
  | _, _ => Err EValueError
  end.

(** resources/certutils.py 514-589 (validate_cmp_extended_key_usage). *)
Definition validate_cmp_extended_key_usage (c : kcert) (ext_key_usages : string) (s : str_or_int) : result unit :=
  let! st := strictness_get s in
  match st with
  | NONE => Ok tt
  | _ =>
    match k_eku c with
    | None => match st with LAX => Ok tt | _ => Err EValueError end
    | Some eku =>
        let! expected := expected_eku ext_key_usages in
        let found := filter (fun o => mem o expected) eku in
        let! _ := guard (Nat.eqb (length expected) (length found)) EValueError in
        match st with
        | ABS_STRICT => guard (Nat.eqb (length eku) (length expected)) EValueError
        | _ => Ok tt
        end
    end
  end.

(** resources/certbuildutils.py 791-877 (prepare_extensions), the part for [eku]: the OIDs of the extension. *)
Definition prepare_eku (eku : string) : result (list oid) := expected_eku eku.

(** ** Status information *)
(** rfc9480.PKIStatus and rfc9480.PKIFailureInfo (pyasn1-alt-modules, not in /repo; RFC 9810 Appendix F). *)
Definition PKI_STATUS : list (string * Z) :=
  [("accepted", 0); ("grantedWithMods", 1); ("rejection", 2); ("waiting", 3); ("revocationWarning", 4);
   ("revocationNotification", 5); ("keyUpdateWarning", 6)].
Definition FAIL_NAMES : list string :=
  ["badAlg"; "badMessageCheck"; "badRequest"; "badTime"; "badCertId"; "badDataFormat"; "wrongAuthority";
   "incorrectData"; "missingTimeStamp"; "badPOP"; "certRevoked"; "certConfirmed"; "wrongIntegrity";
   "badRecipientNonce"; "timeNotAvailable"; "unacceptedPolicy"; "unacceptedExtension"; "addInfoNotAvailable";
   "badSenderNonce"; "badCertTemplate"; "signerNotTrusted"; "transactionIdInUse"; "unsupportedVersion";
   "notAuthorized"; "systemUnavail"; "systemFailure"; "duplicateCertReq"].
(** rfc5280.CRLReason: 7 is not used. *)
Definition CRL_REASON : list (string * Z) :=
  [("unspecified", 0); ("keyCompromise", 1); ("cACompromise", 2); ("affiliationChanged", 3); ("superseded", 4);
   ("cessationOfOperation", 5); ("certificateHold", 6); ("removeFromCRL", 8); ("privilegeWithdrawn", 9);
   ("aACompromise", 10)].

(** A PKIStatusInfo: the status and the bits of failInfo. A message: the name of its body and its first PKIStatusInfo. *)
Record sinfo := { s_status : Z; s_fail : option (list bool) }.
Record smsg := { m_body : string; m_info : sinfo }.

(** resources/cmputils.py 5070-5109 (get_pkistatusinfo) at index 0, which exists. *)
Definition get_pkistatusinfo (m : smsg) : result sinfo :=
  if str_mem (m_body m) ["error"; "rp"; "ip"; "cp"; "kup"; "ccp"; "certConf"] then Ok (m_info m) else Err EValueError.

Definition fail_info (i : sinfo) : bitstr := {| b_names := FAIL_NAMES; b_val := s_fail i |}.
Definition is_some {A} (o : option A) : bool := match o with Some _ => true | None => false end.

(** resources/cmputils.py 5116-5187 (verify_pkistatusinfo). *)
Definition verify_pkistatusinfo (m : smsg) (body_type status failinfos : option string)
    (exclusive must_be_present allow_failure_info : bool) : result unit :=
  let! st := match status, failinfos with
             | Some s, _ => Ok s
             | None, Some _ => Ok "rejection"
             | None, None => Err EValueError
             end in
  let! i := get_pkistatusinfo m in
  let! correct := asn1_compare_named_values (NInt PKI_STATUS (s_status i)) st true false in
  let! _ := guard correct EValueError in
  let! _ := guard (negb (negb (is_some (s_fail i)) && must_be_present)) EValueError in
  let! _ :=
    match failinfos with
    | None => Ok tt
    | Some f =>
        let! r := is_bit_set (fail_info i) (AStr (strip is_space f)) exclusive in
        if r then Ok tt else if allow_failure_info then Ok tt else Err EValueError
    end in
  match body_type with
  | None => Ok tt
  | Some b => guard (String.eqb (strip is_space b) (m_body m)) EValueError
  end.

(** resources/checkutils.py 1654-1696 (check_rp_cmp_message_body). *)
Definition check_rp_body (m : smsg) : result unit :=
  let! _ := guard (String.eqb (m_body m) "rp") EValueError in
  let! i := get_pkistatusinfo m in
  let! accepted := asn1_compare_named_values (NInt PKI_STATUS (s_status i)) "accepted" true false in
  if accepted then guard (negb (is_some (s_fail i))) EValueError
  else
    let! rejected := asn1_compare_named_values (NInt PKI_STATUS (s_status i)) "rejected" true false in
    if rejected then Ok tt else Err EValueError.

(** ** Key usage in requests *)
Definition inter (a b : list string) : bool := existsb (fun x => str_mem x b) a.
Definition subset (a b : list string) : bool := forallb (fun x => str_mem x b) a.
Definition diff (a b : list string) : list string := filter (fun x => negb (str_mem x b)) a.
Definition SIG_USAGES : list string := ["digitalSignature"; "nonRepudiation"; "keyCertSign"; "cRLSign"].
Definition SIG_DISALLOWED : list string :=
  ["keyEncipherment"; "dataEncipherment"; "keyAgreement"; "encipherOnly"; "decipherOnly"].

(** resources/certbuildutils.py 2311-2323 (_check_sig_key). *)
Definition check_sig_key (u : list string) : result unit :=
  let! _ := guard (match diff SIG_DISALLOWED KU_NAMES with [] => true | _ => false end) EValueError in
  let! _ := guard (subset u SIG_USAGES) EBadCertTemplate in
  guard (negb (inter u SIG_DISALLOWED)) EBadCertTemplate.

(** resources/certbuildutils.py 2334-2341 and 2353-2358: the rules for encipherOnly and decipherOnly. *)
Definition check_only_flags (u : list string) : result unit :=
  let! _ := guard (negb ((str_mem "encipherOnly" u || str_mem "decipherOnly" u) && negb (str_mem "keyAgreement" u)))
                  EBadCertTemplate in
  guard (negb (inter u ["encipherOnly"; "decipherOnly"])) EBadCertTemplate.

(** resources/certbuildutils.py 2326-2340 (_check_ecc_key_usage). *)
Definition check_ecc_key_usage (u : list string) : result unit :=
  let! _ := guard (negb (inter u ["keyEncipherment"; "dataEncipherment"])) EBadCertTemplate in
  check_only_flags u.

(** resources/certbuildutils.py 2343-2357 (_check_x_ecc_key_usage). *)
Definition check_x_ecc_key_usage (u : list string) : result unit :=
  let disallowed := diff KU_NAMES ["decipherOnly"; "encipherOnly"; "keyAgreement"] in
  let! _ := guard (negb (inter u disallowed)) EBadCertTemplate in
  check_only_flags u.

(** The public key of a request: a key with a [name] attribute (KEM, signature, other), or a key of the cryptography
    package under its name in KEY_CLASS_MAPPING (resources/oid_mapping.py 50-67; another class is a KeyError there), with
    the algorithm OID of the request if that is id-ecDH or id-ecMQV. *)
Inductive req_key := RNamedKem | RNamedSig | RNamedOther | RTrad (name : string).
Inductive spki_alg := SEcDH | SEcMQV | SOther.

(** resources/certbuildutils.py 2360-2422 (_verify_key_usage) after the extensions are found and decoded: [usage] is the
    key usage extension, [key] the public key, [None] without one. *)
Definition verify_key_usage (usage : option (list bool)) (alg : spki_alg) (key : option req_key)
  : result (option (list bool * bool)) :=
  match usage with
  | None => Ok None
  | Some x =>
      let! joined := get_set_bitstring_names (ku x) in
      let key_usages := split2 COMMA SPC joined in
      let! _ :=
        match key with
        | None => Err EValueError
        | Some RNamedKem => guard (subset key_usages ["keyEncipherment"] && str_mem "keyEncipherment" key_usages)
                                  EBadCertTemplate
        | Some RNamedSig => check_sig_key key_usages
        | Some RNamedOther => Err EValueError
        | Some (RTrad n) =>
            let name := match alg with SEcDH => "ECDH" | SEcMQV => "ECMQV" | SOther => n end in
            if str_mem name ["ed448"; "ed25519"; "dsa"] then check_sig_key key_usages
            else if String.eqb name "ecdsa" then check_ecc_key_usage key_usages
            else if str_mem name ["rsa"] then Ok tt
            else if str_mem name ["x25519"; "x448"; "id_ecMQV"; "id_ecDH"] then check_x_ecc_key_usage key_usages
            else Err EValueError
        end in
      let! e := prepare_key_usage_extension (String.concat "," key_usages) true in
      Ok (Some e)
  end.

(** The basic constraints of a request: cA and pathLenConstraint. *)
Record basic := { bc_ca : bool; bc_path : option Z }.

(** resources/certbuildutils.py 2675-2717 (check_logic_extensions): [None] for extensions that are absent; the outer
    [None] when there are no extensions. *)
Definition check_logic_extensions (exts : option (option (list bool) * option basic)) (for_ee : option bool)
  : result unit :=
  match exts with
  | None => Ok tt
  | Some (Some x, bc) =>
      let! names := get_set_bitstring_names (ku x) in
      let! _ := match for_ee with
                | Some false => guard (negb (CompLoadModel.contains "keyCertSign" names
                                             || CompLoadModel.contains "cRLSign" names)) EBadCertTemplate
                | _ => Ok tt
                end in
      match bc with
      | Some b => guard (negb (negb (bc_ca b) && CompLoadModel.contains "keyCertSign" names)) EBadCertTemplate
      | None => Ok tt
      end
  | Some (None, bc) =>
      match for_ee with
      | Some true =>
          match bc with
          | None => Ok tt
          | Some b =>
              let! _ := guard (negb (bc_ca b)) EBadCertTemplate in
              guard (match bc_path b with Some p => p =? 0 | None => true end) EBadCertTemplate
          end
      | _ => Ok tt
      end
  end.

(** resources/ca_ra_utils.py 4488-4512 (_ensure_key_usage): the key usage bits after the call. *)
Definition ensure_key_usage (usage : option (list bool)) : result (list bool) :=
  match usage with
  | Some x =>
      let! joined := get_set_bitstring_names (ku x) in
      let! _ := guard (subset ["keyCertSign"] (split2 COMMA SPC joined)) EBadCertTemplate in
      Ok x
  | None => let! e := prepare_key_usage_extension "keyCertSign,digitalSignature" true in Ok (fst e)
  end.

(** The kind of a post-quantum key: a signature key (post-quantum or composite), a KEM key, another key. *)
Inductive mig_key := MSig | MKem | MOther.

(** resources/certutils.py 2046-2091 (validate_migration_certificate_key_usage). *)
Definition validate_migration_key_usage (key : mig_key) (usage : option (list bool)) : result unit :=
  match usage with
  | None => Ok tt
  | Some x =>
      let! joined := get_set_bitstring_names (ku x) in
      let u := split2 COMMA SPC joined in
      let! _ := match key with
                | MSig => let! _ := guard (subset u SIG_USAGES) EValueError in
                          guard (negb (inter u SIG_DISALLOWED)) EValueError
                | _ => Ok tt
                end in
      match key with
      | MKem => guard (subset u ["keyEncipherment"] && str_mem "keyEncipherment" u) EValueError
      | _ => Err EValueError
      end
  end.

(** pq_logic/hybrid_sig/cert_binding_for_multi_auth.py 294-340 (validate_ku_and_eku_related_cert): both extended key usages
    are read from the first certificate, each OID is looked up with [in] among the fields of the related certificate
    (pyasn1: no OID is the name of a field), and the sets for the key usage hold the characters of the joined names. *)
Definition validate_ku_and_eku_related_cert (cert_a related_cert : kcert) : result unit :=
  let! _ :=
    match k_eku cert_a with
    | None => Ok tt
    | Some l => guard (forallb (fun _ => false) l) EValueError
    end in
  match k_usage cert_a with
  | None => Ok tt
  | Some a =>
      let! na := get_set_bitstring_names (ku a) in
      match k_usage related_cert with
      | None => Err EAttribute
      | Some b =>
          let! nb := get_set_bitstring_names (ku b) in
          guard (all_chars (fun c => has_char c nb) na) EValueError
      end
  end.
