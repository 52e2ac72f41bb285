(** Model of certificate-chain building, the order check on extraCerts and the
    trust decisions (resources/certutils.py, resources/checkutils.py). *)
From Coq Require Import String.
From Verif Require Import Prelude.

(** A certificate as the modelled functions see it: DER values of issuer,
    subject and the whole certificate, the printed subject and the serial
    number. *)
Record cert := {
  c_der : bytes;
  c_issuer : bytes;
  c_subject : bytes;
  c_name : string;
  c_serial : Z
}.

(** What is not modelled further: loading the key of a certificate
    (resources/certutils.py 307-333 (load_public_key_from_cert)), looking up the hash
    of the signature algorithm of a certificate, and verifying the signature of
    the second certificate with the key of the first. *)
Record env := {
  e_load : cert -> result unit;
  e_hash : cert -> result unit;
  e_verify : cert -> cert -> result unit
}.

(** The exceptions named in the except clause of
    resources/certutils.py 359-398 (check_is_cert_signer), with their subclasses. *)
Definition signer_failure (e : exn) : bool :=
  match e with
  | EValueError | EUnicode | EInvalidSignature | EInvalidAltSignature | EBadSigAlgID => true
  | _ => false
  end.

(** Models resources/certutils.py 359-398 (check_is_cert_signer). *)
Definition check_is_cert_signer (E : env) (c poss_issuer : cert) : result bool :=
  if negb (bytes_eqb (c_issuer c) (c_subject poss_issuer)) then Ok false
  else
    let! _ := e_load E poss_issuer in
    let! _ := e_hash E c in
    match e_verify E poss_issuer c with
    | Ok _ => Ok true
    | Err e => if signer_failure e then Ok false else Err e
    end.

(** The inner loop of resources/certutils.py 249-289 (build_chain_from_list): the
    first certificate of the pool that signed [c]. *)
Fixpoint find_signer (E : env) (c : cert) (pool : list cert) : result (option cert) :=
  match pool with
  | [] => Ok None
  | i :: pool' =>
      let! s := check_is_cert_signer E c i in
      if s then Ok (Some i) else find_signer E c pool'
  end.

Definition self_issued (c : cert) : bool := bytes_eqb (c_issuer c) (c_subject c).

(** The outer loop of resources/certutils.py 249-289 (build_chain_from_list); the
    result is what has been appended to the chain, and the current certificate. *)
Fixpoint chain_loop (E : env) (n : nat) (pool : list cert) (current : cert) : result (list cert) :=
  match n with
  | O => Ok []
  | S k =>
      let! o := find_signer E current pool in
      match o with
      | Some i =>
          if self_issued i then Ok [i]
          else let! r := chain_loop E k pool i in Ok (i :: r)
      | None =>
          if self_issued current then Ok []
          else chain_loop E k pool current
      end
  end.

(** Models resources/certutils.py 249-289 (build_chain_from_list). *)
Definition build_chain_from_list (E : env) (ee : cert) (pool : list cert) (must_be_self_signed : bool)
  : result (list cert) :=
  let! s := check_is_cert_signer E ee ee in
  if s then Ok [ee]
  else
    let! r := chain_loop E (List.length pool + 1) pool ee in
    let chain := ee :: r in
    if negb (self_issued (last chain ee)) then
      if must_be_self_signed then Err EValueError else Ok chain
    else Ok chain.

(** Models resources/certutils.py 402-467 (build_cmp_chain_from_pkimessage) for a
    message with the given extraCerts and caPubs ([None]: not set); [issued] is
    the outcome of get_cert_from_pkimessage, [ee] the argument ee_cert. *)
Definition build_cmp_chain (E : env) (extra : option (list cert)) (ca_pubs : option (list cert))
    (issued : result cert) (ee : option cert) (for_issued last_self_signed : bool)
  : result (list cert) :=
  match extra with
  | None => Err EValueError
  | Some certs =>
      if for_issued then
        let! c := issued in
        let pool := match ca_pubs with Some l => certs ++ l | None => certs end in
        build_chain_from_list E c pool false
      else
        let! c := match ee with
                  | Some c => Ok c
                  | None => match certs with c :: _ => Ok c | [] => Err EIndexError end
                  end in
        build_chain_from_list E c certs last_self_signed
  end.

(** ** Order of extraCerts *)

Definition cert_id (c : cert) : string * Z := (c_name c, c_serial c).

Definition id_eqb (a b : string * Z) : bool := String.eqb (fst a) (fst b) && Z.eqb (snd a) (snd b).

(** Models resources/checkutils.py 783-803 (_prepare_indicies) and
    resources/checkutils.py 806-819 (_get_cert_index): the first position of a
    certificate with the same identifier. *)
Fixpoint index_from (k : nat) (id : string * Z) (extra : list cert) : option nat :=
  match extra with
  | [] => None
  | c :: extra' => if id_eqb (cert_id c) id then Some k else index_from (S k) id extra'
  end.

Definition get_cert_index (c : cert) (extra : list cert) : result nat :=
  match index_from 0 (cert_id c) extra with Some i => Ok i | None => Err EKeyError end.

(** The last loop of resources/checkutils.py 844-885 (check_single_chain_is_ordered). *)
Fixpoint order_loop (extra : list cert) (last_index : nat) (rest : list cert) : result bool :=
  match rest with
  | [] => Ok true
  | issuer :: rest' =>
      let! j := get_cert_index issuer extra in
      if negb ((j =? last_index + 1)%nat || (j <? last_index)%nat) then Ok false
      else order_loop extra (last_index + 1) rest'
  end.

(** Models resources/checkutils.py 844-885 (check_single_chain_is_ordered). *)
Definition check_single_chain_is_ordered (extra chain : list cert) (check_for_issued : bool) : result bool :=
  let to_check := if check_for_issued then skipn 1 chain else chain in
  let! _ := guard (forallb (fun c => is_ok (get_cert_index c extra)) to_check) EValueError in
  match to_check with
  | [] => Err EIndexError
  | c :: rest =>
      let! i := get_cert_index c extra in
      order_loop extra i rest
  end.

(** Models resources/checkutils.py 889-908 (find_right_cert_pos): [v c] is the
    outcome of verify_signature_with_cert for that certificate.  [None] is -1. *)
Fixpoint find_right_cert_pos (v : cert -> result unit) (extra : list cert) : result (option nat) :=
  match extra with
  | [] => Ok None
  | c :: extra' =>
      match v c with
      | Ok _ => Ok (Some O)
      | Err (EValueError | EUnicode | EInvalidSignature | EInvalidAltSignature) =>
          let! o := find_right_cert_pos v extra' in Ok (option_map S o)
      | Err e => Err e
      end
  end.

(** ** extraCerts of a message *)

Inductive mtype := Mcert_response (* ip, cp, kup *) | Mshort (* pkiconf, pollReq, pollRep *) | Mother.

(** A message, as resources/checkutils.py 501-571 (validate_extra_certs) sees it:
    [x_sig] says that the protection type is "sig"; [x_prot] is the outcome of
    check_is_protection_present and [x_verify] that of
    verify_pkimessage_protection. *)
Record xmsg := {
  x_type : mtype;
  x_extra : option (list cert);
  x_issued : result cert;
  x_sig : result bool;
  x_prot : result unit;
  x_verify : result unit
}.

(** Models resources/checkutils.py 463-497 (_check_cmp_protection_for_extra_certs);
    the outcome of the order check is only logged. *)
Definition check_cmp_protection_for_extra_certs (E : env) (m : xmsg) (allow_self_signed : bool) : result unit :=
  let! _ := x_prot m in
  match x_extra m with
  | None => if allow_self_signed then Ok tt else Err EValueError
  | Some extra =>
      if (List.length extra =? 1)%nat then x_verify m
      else
        let! _ := x_verify m in
        let! c := match extra with c :: _ => Ok c | [] => Err EIndexError end in
        let! chain := build_cmp_chain E (x_extra m) None (Err EValueError) (Some c) false false in
        let! _ := check_single_chain_is_ordered extra chain false in
        Ok tt
  end.

(** Models resources/checkutils.py 501-571 (validate_extra_certs); [eku c] is the
    outcome of validate_cmp_extended_key_usage for certificate [c] with the
    given strictness and usages. *)
Definition validate_extra_certs (E : env) (eku : cert -> result unit) (m : xmsg) (allow_self_signed : bool)
  : result unit :=
  let! _ :=
    match x_type m with
    | Mcert_response =>
        match x_extra m with
        | None => Err EValueError
        | Some extra =>
            let! issued := x_issued m in
            let! chain := build_cmp_chain E (x_extra m) None (x_issued m) (Some issued) false false in
            match chain with
            | _ :: issuer :: _ =>
                let! _ := eku issuer in
                let! _ := check_single_chain_is_ordered extra chain true in
                Ok tt
            | _ => Err EValueError
            end
        end
    | _ => Ok tt
    end in
  match x_type m, x_extra m with
  | Mshort, None => Ok tt
  | _, _ =>
      let! s := x_sig m in
      if s then check_cmp_protection_for_extra_certs E m allow_self_signed else Ok tt
  end.

(** ** Trust *)

(** Models resources/certutils.py 1053-1066 (cert_in_list). *)
Definition cert_in_list (c : cert) (l : list cert) : bool :=
  existsb (fun x => bytes_eqb (c_der c) (c_der x)) l.

(** Models resources/certutils.py 217-245 (load_truststore): [dir] is the content of
    the directory ([None]: path is None), [os] that of the system store. *)
Definition load_truststore (dir : option (list cert)) (os : list cert) (allow_os_store : bool) : list cert :=
  (match dir with Some l => l | None => [] end) ++ (if allow_os_store then os else []).

(** Models resources/certutils.py 1069-1114 (certificates_are_trustanchors). *)
Definition certificates_are_trustanchors (certs : list cert) (dir : option (list cert)) (os : list cert)
    (allow_os_store : bool) : result unit :=
  let anchors := load_truststore dir os allow_os_store in
  let! _ := guard (negb (List.length anchors =? 0)%nat) EValueError in
  guard (forallb (fun c => cert_in_list c anchors) certs) ESignerNotTrusted.

(** Models resources/certutils.py 1117-1196 (certificates_must_be_trusted): [openssl]
    is the outcome of verify_cert_chain_openssl, [usage] that of
    validate_key_usage on the first certificate ([None]: key_usages is None). *)
Definition certificates_must_be_trusted (chain : list cert) (dir : option (list cert)) (os : list cert)
    (allow_os_store : bool) (openssl : list cert -> result unit) (usage : option (cert -> result unit))
  : result unit :=
  let anchors := match dir with
                 | Some _ => load_truststore dir os allow_os_store
                 | None => []
                 end in
  match chain with
  | [] => Err EIndexError
  | ee :: _ =>
      let! _ := guard (cert_in_list (last chain ee) anchors) ESignerNotTrusted in
      if (List.length chain =? 1)%nat then Ok tt
      else
        let! _ := openssl chain in
        match usage with
        | None => Ok tt
        | Some u => u ee
        end
  end.

(** Models resources/certutils.py 1311-1357 (find_crl_signer_cert) for a CRL with
    issuer [crl_issuer]; [v c] is the outcome of verifying its signature with
    the key of [c]. *)
Fixpoint find_crl_signer (crl_issuer : bytes) (v : cert -> result unit) (certs : list cert) : result cert :=
  match certs with
  | [] => Err EValueError
  | c :: certs' =>
      if bytes_eqb crl_issuer (c_subject c) then
        match v c with
        | Ok _ => Ok c
        | Err (EValueError | EUnicode | EInvalidSignature | EInvalidAltSignature) =>
            find_crl_signer crl_issuer v certs'
        | Err e => Err e
        end
      else find_crl_signer crl_issuer v certs'
  end.

(** Models resources/certutils.py 1361-1399 (build_crl_chain_from_list) (the
    certificates of the chain that follows the CRL). *)
Definition build_crl_chain (E : env) (crl_issuer : bytes) (v : cert -> result unit) (certs : list cert)
    (dir : option (list cert)) (os : list cert) (allow_os_store : bool) : result (list cert) :=
  let pool := certs ++ load_truststore dir os allow_os_store in
  let! s := find_crl_signer crl_issuer v pool in
  build_chain_from_list E s pool false.
