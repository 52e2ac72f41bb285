(** Model of the chains of certificates of a migration and of Sun hybrid certificates, of the kinds of hybrid certificates and
    of the verification of a hybrid signature with two certificates (pq_logic/pq_verify_logic.py 55-108, 223-381,
    pq_logic/hybrid_issuing.py 1270-1315).

    Simplified: a certificate is its encoding, its names and its serial number, as in CertChainModel; converting it and
    verifying it are parameters (they are SunModel.convert and SunModel.verify_trad for Sun hybrid certificates); the logging
    is left out. *)
From Coq Require Import String.
From Verif Require Import Prelude CertChainModel.
Open Scope string_scope.
Open Scope Z_scope.
Open Scope list_scope.

(** [l_verify x c]: loading the key of [x] and verifying the signature of [c] with it; [l_form4]:
    convert_sun_hybrid_cert_to_target_form to Form4; [l_trad c x]: _verify_sun_hybrid_trad_sig; [l_env]: what
    build_chain_from_list calls. *)
Record lib := {
  l_verify : cert -> cert -> result unit;
  l_form4 : cert -> result cert;
  l_trad : cert -> cert -> result unit;
  l_env : env
}.

(** Models pq_logic/pq_verify_logic.py 223-227 (_check_names). *)
Definition check_names (c x : cert) : bool := bytes_eqb (c_issuer c) (c_subject x).
(** The loop of pq_logic/pq_verify_logic.py 309-330: what is appended to the chain of [c]. *)
Fixpoint walk (L : lib) (c : cert) (pool : list cert) : result (list cert) :=
  match pool with
  | [] => Ok []
  | x :: r =>
      if negb (check_names c x) then walk L c r
      else match l_verify L x c with
           | Ok _ => if self_issued c then Ok [] else let! l := walk L x r in Ok (x :: l)
           | Err e => if signer_failure e then walk L c r else Err e
           end
  end.
(** Models pq_logic/pq_verify_logic.py 269-336 (build_migration_cert_chain). *)
Definition migration_chain (L : lib) (c : cert) (pool : list cert) (allow : bool) : result (list cert) :=
  let! _ := guard (match pool with [] => false | _ => true end) EValueError in
  let! l := walk L c pool in
  let! _ := guard (match l with [] => allow | _ => true end) EValueError in
  Ok (c :: l).

Definition bad_signature (e : exn) : bool := match e with EInvalidSignature | EInvalidAltSignature => true | _ => false end.
Fixpoint find_trad (L : lib) (c : cert) (pool : list cert) : result cert :=
  match pool with
  | [] => Err EValueError
  | x :: r =>
      if negb (check_names c x) then find_trad L c r
      else match l_trad L c x with
           | Ok _ => Ok x
           | Err e => if bad_signature e then find_trad L c r else Err e
           end
  end.
(** Models pq_logic/pq_verify_logic.py 230-266 (find_sun_hybrid_issuer_cert). *)
Definition find_issuer (L : lib) (c : cert) (pool : list cert) : result cert :=
  let! c4 := l_form4 L c in find_trad L c4 pool.

(** Only ValueError, with its subclass, is caught (pq_logic/pq_verify_logic.py 372-376). *)
Fixpoint forms (L : lib) (pool : list cert) : result (list cert) :=
  match pool with
  | [] => Ok []
  | x :: r =>
      match l_form4 L x with
      | Ok y => let! l := forms L r in Ok (y :: l)
      | Err EValueError | Err EUnicode => forms L r
      | Err e => Err e
      end
  end.
(** Models pq_logic/pq_verify_logic.py 339-381 (build_sun_hybrid_cert_chain); extraCerts that are absent are [None]. *)
Definition sun_chain (L : lib) (c : cert) (pool : option (list cert)) : result (list cert) :=
  match pool with
  | None => Err EValueError
  | Some pool =>
      let! c4 := l_form4 L c in
      let! l := forms L pool in
      let! ch := build_chain_from_list (l_env L) c4 l false in
      let! _ := guard (match ch with [_] => false | _ => true end) EValueError in
      Ok ch
  end.

(** ** Kinds *)

(** What is_hybrid_cert looks at: the algorithm of the key is a composite signature, the types of the extensions in their
    order, and whether it is a certificate for certificate discovery. *)
Record looks := { k_composite : bool; k_exts : list string; k_discovery : result bool }.
Definition has (l : list string) (o : string) : bool := existsb (String.eqb o) l.
(** Models pq_logic/hybrid_issuing.py 1270-1315 (is_hybrid_cert). *)
Definition is_hybrid (c : looks) : result (option string) :=
  if k_composite c then Ok (Some "composite-sig")
  else if has (k_exts c) "id_ce_deltaCertificateDescriptor" then Ok (Some "chameleon")
  else if has (k_exts c) "id_altSignatureExt" then Ok (Some "sun-hybrid")
  else if has (k_exts c) "id_ce_altSignatureValue" || has (k_exts c) "id_ce_subjectAltPublicKeyInfo" then Ok (Some "catalyst")
  else
    let! d := k_discovery c in
    if d then Ok (Some "cert-discovery")
    else if has (k_exts c) "id_relatedCert" then Ok (Some "related-cert") else Ok None.

(** ** Two certificates *)

(** Keys: of a certificate, traditional and post-quantum; the composite of the two; verifying the signature of a certificate
    with it. *)
Record keys (K : Type) := {
  y_trad : cert -> result K;
  y_pq : cert -> result K;
  y_join : K -> K -> result K;
  y_verify : K -> cert -> result unit;
  y_own : cert -> bool
}.
Arguments y_trad {K}. Arguments y_pq {K}. Arguments y_join {K}. Arguments y_verify {K}. Arguments y_own {K}.
(** Models pq_logic/pq_verify_logic.py 55-108 (verify_cert_hybrid_signature): the field of the other certificate is read before
    it is tested; [y_own] is whether the algorithm of the key of the certificate is a composite signature. *)
Definition verify_two {K} (Y : keys K) (ee issuer : cert) (other : option cert) (catalyst : option K) : result unit :=
  match other with
  | None => Err ETypeError
  | Some o =>
      if y_own Y ee then
        let! t := y_trad Y issuer in
        let! p := y_pq Y o in
        let! k := y_join Y p t in
        y_verify Y k ee
      else Err EUnknownOID
  end.
