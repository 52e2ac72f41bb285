(** The check of a signed PKIMessage (resources/checkutils.py lines 711-780).

    Simplifications.  Messages, certificates and the checks of the sender and of senderKID are those of [HdrModel].  The
    encoding of the protected part, the tables of algorithms, the check of the field protectionAlg and the verifications of
    signatures are the fields of [lib]. *)
From Coq Require Import String.
From Verif Require Import Prelude PyStr HdrModel.
Open Scope Z_scope.
Open Scope list_scope.

Record lib := {
  s_encode : msg -> result bytes;                            (* prepare_protected_part *)
  s_known : msg -> result bool;                              (* the algorithm is in MSG_SIG_ALG *)
  s_algfield : msg -> result unit;                           (* check_protection_alg_field(must_be_protected=True) *)
  s_hash : msg -> result (option string);                    (* get_hash_from_oid and split("-")[1] *)
  s_verify : cert -> bytes -> bytes -> option string -> bool -> result unit;
                                                             (* verify_signature: certificate, data, signature, hash_alg, use_rsa_pss *)
  s_protection : msg -> result unit                          (* verify_pkimessage_protection *)
}.

(** Models resources/certutils.py 1221-1239 (verify_signature_with_cert): use_rsa_pss is not given, so it is False. *)
Definition with_cert (L : lib) (data sig : bytes) (h : option string) (c : cert) : result unit :=
  s_verify L c data sig h false.

(** Models resources/checkutils.py 889-908 (find_right_cert_pos); [None] is -1. *)
Fixpoint find_pos (v : cert -> result unit) (l : list cert) : result (option nat) :=
  match l with
  | [] => Ok None
  | c :: l =>
      match v c with
      | Ok _ => Ok (Some O)
      | Err (EValueError | EUnicode | EInvalidSignature | EInvalidAltSignature) =>
          let! o := find_pos v l in Ok (option_map Datatypes.S o)
      | Err e => Err e
      end
  end.

(** Models resources/checkutils.py 712-780 (check_pkimessage_signature_protection). *)
Definition check_signed (L : lib) (e : env) (m : msg) (allow_sender check_kid : bool) : result unit :=
  let! sig := octets (prot m) in
  let! data := s_encode L m in
  let! known := s_known L m in
  let! _ := guard known EBadAlg in
  match certs m with
  | None => Err EBadMessageCheck
  | Some l =>
      let! _ := s_algfield L m in
      let! _ := check_sender_cmp_protection e m true allow_sender in
      let! _ := if check_kid then validate_senderkid e m None true false else Ok tt in
      let! h := s_hash L m in
      let! p := find_pos (with_cert L data sig h) l in
      match p with
      | Some O => s_protection L m
      | _ => Err EBadMessageCheck
      end
  end.
