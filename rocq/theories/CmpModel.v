(** Model of the comparisons of names, of templates and requests with certificates, and of keys with certificates
    (resources/compareutils.py 25-411, 500-684, resources/utils.py 242-263, resources/ca_ra_utils.py 3337-3680, 4649-4695,
    resources/checkutils.py 1920-1990).

    Simplified: an attribute of a name is its type and its encoded value; times are numbers; an encoded list of extensions
    is the list; the logging is left out, except where it can fail. *)
From Coq Require Import String Ascii.
From Verif Require Import Prelude PyStr ProtTab CatModel.
From Verif Require SunModel SdModel RelModel CAModel.
Open Scope string_scope.
Open Scope Z_scope.
Open Scope list_scope.
Local Notation oid := ProtTab.oid.

(** ** Names *)

Definition atv : Type := (oid * bytes)%type.
Definition rdns : Type := list (list atv).
(** A Name: the tag it carries besides its own, if any, and the rdnSequence. *)
Record name := { n_tag : option Z; n_rdns : rdns }.

(** What is called: DER of an rdnSequence, of one RDN and of a tagged name; get_openssl_name_notation, which decodes the
    values; loading a key, its encoding, whether two keys are equal and of one class; DER of a SubjectPublicKeyInfo; the
    object identifier of the name of a key; decoding the extensions of a request. *)
Record lib := {
  l_seqenc : rdns -> bytes;
  l_rdnenc : list atv -> bytes;
  l_tagged : Z -> bytes -> bytes;
  l_notation : rdns -> result string;
  l_load : spki -> result pub;
  l_der : pub -> bytes;
  l_same : pub -> pub -> bool;
  l_class : pub -> Z;
  l_spkienc : spki -> bytes;
  l_by_name : string -> result oid;
  l_extsdec : bytes -> option (list ext * bytes)
}.

(** resources/suiteenums.py 138-144 (NameCompareTypes). *)
Inductive mode := MStrict | MWithout | MContains | MSeq.
Definition mode_of (s : string) : result mode :=
  if String.eqb s "strict" then Ok MStrict else if String.eqb s "without_tag" then Ok MWithout
  else if String.eqb s "contains" then Ok MContains else if String.eqb s "contains_seq" then Ok MSeq else Err EValueError.
Definition atv_eqb (a b : atv) : bool := String.eqb (fst a) (fst b) && bytes_eqb (snd a) (snd b).
Definition encode_name (L : lib) (n : name) : bytes :=
  match n_tag n with None => l_seqenc L (n_rdns n) | Some t => l_tagged L t (l_seqenc L (n_rdns n)) end.
(** The loop over the RDNs with their positions: each attribute of the first name is among those of the second at the same
    position. *)
Fixpoint contains_seq (a b : rdns) : bool :=
  match a, b with
  | [], _ => true
  | r :: a', [] => match r with [] => contains_seq a' [] | _ => false end
  | r :: a', s :: b' => forallb (fun x => existsb (atv_eqb x) s) r && contains_seq a' b'
  end.
(** Models resources/compareutils.py 25-91 (compare_pyasn1_names). *)
Definition compare_names (L : lib) (a b : name) (m : string) : result bool :=
  let! m := mode_of m in
  match m with
  | MWithout => Ok (bytes_eqb (l_seqenc L (n_rdns a)) (l_seqenc L (n_rdns b)))
  | MStrict => Ok (bytes_eqb (encode_name L a) (encode_name L b))
  | MContains => Ok (forallb (fun r => forallb (fun x => existsb (fun s => existsb (atv_eqb x) s) (n_rdns b)) r) (n_rdns a))
  | MSeq => Ok (contains_seq (n_rdns a) (n_rdns b))
  end.
(** Models resources/compareutils.py 528-552 (find_rel_dis_name_in_name). *)
Definition find_rdn (L : lib) (r : list atv) (n : name) : bool :=
  existsb (fun s => bytes_eqb (l_rdnenc L r) (l_rdnenc L s)) (n_rdns n).
(** Models resources/compareutils.py 556-580 (is_null_dn). *)
Definition is_null (L : lib) (n : name) : bool := bytes_eqb (l_seqenc L (n_rdns n)) [48; 0].
(** The parameters of an algorithm identifier that is decoded (Any) or built (Null, here). *)
Inductive param := PAbsent | PNull | PAny (b : bytes).
(** Models resources/compareutils.py 584-598 (check_if_alg_id_parameters_is_absent). *)
Definition params_absent (p : param) (allow_null : bool) : bool :=
  match p with
  | PAbsent => true
  | PNull => allow_null
  | PAny b => bytes_eqb b [5; 0]
  end.

(** ** Templates *)

(** rfc4211.CertTemplate, without signingAlg, and the fields of a certificate. *)
Record template := {
  t_version : option Z; t_serial : option Z; t_issuer : option name; t_validity : option (option Z * option Z);
  t_subject : option name; t_key : option spki; t_iuid : option bytes; t_suid : option bytes; t_exts : option (list ext)
}.
Record cert := {
  c_version : Z; c_serial : Z; c_issuer : name; c_from : Z; c_to : Z; c_subject : name; c_key : spki;
  c_iuid : option bytes; c_suid : option bytes; c_exts : list ext
}.
Definition FIELDS : list string :=
  ["version"; "serialNumber"; "signingAlg"; "issuer"; "validity"; "subject"; "publicKey"; "issuerUID"; "subjectUID"; "extensions"].
(** Models resources/utils.py 242-262 (filter_options): blanks are removed at both ends of the text, not around its commas. *)
Definition filter_options (options : list string) (include exclude : option string) : list string :=
  let parse s := split ","%char (strip is_blank s) in
  match include with
  | None => match exclude with None => [] | Some s => parse s end
  | Some s => filter (fun o => negb (existsb (String.eqb o) (parse s))) options
  end.
Definition out (f : string) (ex : list string) : bool := existsb (String.eqb f) ex.

(** Models resources/compareutils.py 94-123 (_compare_validity_template_and_cert). *)
Definition validity_ok (t : template) (c : cert) (ex : bool) : bool :=
  if ex then true
  else match t_validity t with
       | None => true
       | Some (f, u) => (match f with None => true | Some x => x =? c_from c end)
                        && (match u with None => true | Some x => x =? c_to c end)
       end.
(** Models resources/compareutils.py 126-162 (_compare_public_key_template_and_cert): when the algorithms differ,
    may_return_oid_to_name is called with the whole identifier, which cannot be looked up (pyasn1: a constructed value has no
    hash). *)
Definition key_ok (L : lib) (t : template) (c : cert) (ex : bool) : result bool :=
  if ex then Ok true
  else match t_key t with
       | None => Ok true
       | Some s =>
           match k_bits s with
           | [] => let! same := SunModel.alg_cmp (k_alg s) (k_alg (c_key c)) in if same then Ok true else Err ETypeError
           | _ => let! k := l_load L (c_key c) in Ok (bytes_eqb (l_der L k) (l_spkienc L s))
           end
       end.
(** Models resources/compareutils.py 165-184 (_compare_extensions_subject_template_and_cert). *)
Definition exts_ok (t : template) (c : cert) (ex : bool) : bool :=
  if ex then true
  else match t_exts t with
       | None => true
       | Some l => forallb (fun e => existsb (fun x => String.eqb (x_id x) (x_id e)) (c_exts c)) l
       end.
(** Models resources/compareutils.py 187-217 (_compare_uids_template_and_cert). *)
Definition uid_ok (t c : option bytes) (ex : bool) : bool :=
  match t with
  | None => true
  | Some x => if ex then true else match c with Some y => bytes_eqb x y | None => false end
  end.
(** Models resources/compareutils.py 220-271 (_compare_issuer_and_subject_template_and_cert): the texts of the subjects are
    made in any case, those of the issuers when they differ. *)
Definition names_ok (L : lib) (t : template) (c : cert) (ex : list string) (strict : bool) : result bool :=
  let! a := match t_issuer t with
            | None => Ok true
            | Some n => if out "issuer" ex then Ok true
                        else let! b := compare_names L n (c_issuer c) "without_tag" in
                             if b then Ok true
                             else let! _ := l_notation L (n_rdns n) in let! _ := l_notation L (n_rdns (c_issuer c)) in Ok false
            end in
  if negb a then Ok false
  else match t_subject t with
       | None => Ok true
       | Some n => if out "subject" ex then Ok true
                   else let! _ := l_notation L (n_rdns n) in
                        let! _ := l_notation L (n_rdns (c_subject c)) in
                        compare_names L n (c_subject c) (if strict then "without_tag" else "contains")
       end.
(** Models resources/compareutils.py 275-352 (compare_cert_template_and_cert). *)
Definition compare_template (L : lib) (t : template) (c : cert) (include exclude : option string) (strict : bool) : result bool :=
  let ex := filter_options FIELDS include exclude in
  if negb (match t_serial t with None => true | Some n => out "serialNumber" ex || (n =? c_serial c) end) then Ok false
  else if negb (exts_ok t c (out "extensions" ex)) then Ok false
  else
    let! a := names_ok L t c ex strict in
    if negb a then Ok false
    else
      let! b := key_ok L t c (out "publicKey" ex) in
      if negb b then Ok false
      else if negb (validity_ok t c (out "validity" ex)) then Ok false
      else if negb (uid_ok (t_iuid t) (c_iuid c) (out "issuerUID" ex) && uid_ok (t_suid t) (c_suid c) (out "subjectUID" ex)) then Ok false
      else Ok (match t_version t with None => true | Some n => out "version" ex || (n =? c_version c) end).
(** Models resources/ca_ra_utils.py 3337-3356 (_contains_cert_template): what is found by the serial number and the issuer
    decides on the text of the error only. *)
Fixpoint contains_template (L : lib) (t : template) (certs : list cert) : result cert :=
  match certs with
  | [] => Err EBadCertId
  | c :: r =>
      let! _ := compare_template L t c (Some "serialNumber, issuer") None false in
      let! b := compare_template L t c None None true in
      if b then Ok c else contains_template L t r
  end.
(** Models resources/ca_ra_utils.py 4649-4658 (_compare_comp_template). *)
Fixpoint any_template (L : lib) (t : template) (certs : list cert) : result bool :=
  match certs with
  | [] => Ok false
  | c :: r => let! b := compare_template L t c None None true in if b then Ok true else any_template L t r
  end.
Fixpoint any_subject_key (L : lib) (n : name) (k : pub) (certs : list cert) : result bool :=
  match certs with
  | [] => Ok false
  | c :: r =>
      let! a := compare_names L (c_subject c) n "without_tag" in
      let! x := l_load L (c_key c) in
      if a && l_same L k x then Ok true else any_subject_key L n k r
  end.
(** Models resources/ca_ra_utils.py 4662-4694 (cert_template_exists): [key] is what load_public_key_from_cert_template
    returns; a subject that is absent cannot be encoded. *)
Definition template_exists (L : lib) (t : template) (key : result (option pub)) (certs : list cert) (only : bool) : result bool :=
  let! k := key in
  match k with
  | None => Ok false
  | Some k =>
      if negb only then any_template L t certs
      else match t_subject t, certs with
           | _, [] => Ok false
           | None, _ => Err EPyAsn1
           | Some n, _ => any_subject_key L n k certs
           end
  end.
(** Models resources/checkutils.py 1920-1990 (check_for_granted_with_mods, after the body types are looked at):
    [status] is what get_pkistatusinfo reads. *)
Definition granted (L : lib) (t : template) (c : cert) (include exclude : option string) (strict : bool) (status : result string)
  : result unit :=
  let! b := compare_template L t c include exclude strict in
  if b then Ok tt else let! s := status in guard (String.eqb "grantedWithMods" s) EValueError.

(** ** Requests *)

(** rfc6402.CertificationRequest: subject, key and attributes (type and values). *)
Record csr := { r_subject : name; r_key : spki; r_attrs : option (list SdModel.attr) }.
(** Models resources/compareutils.py 356-410 (compare_csr_and_cert): an empty list of extensions cannot be encoded. *)
Definition compare_csr (L : lib) (r : csr) (c : cert) (strict : bool) : result bool :=
  let! a := compare_names L (r_subject r) (c_subject c) (if strict then "without_tag" else "contains") in
  if negb a then Ok false
  else if negb (bytes_eqb (l_spkienc L (r_key r)) (l_spkienc L (c_key c))) then Ok false
  else
    match r_attrs r with
    | None | Some [] => Ok true
    | Some [x] =>
        if String.eqb (SdModel.t_type x) RelModel.EXT_REQUEST then
          match SdModel.t_vals x with
          | [] => Err EPyAsn1
          | v :: _ =>
              match l_extsdec L v with
              | None => Err EPyAsn1
              | Some (l, _) =>
                  let! _ := guard (match l, c_exts c with [], _ => false | _, [] => false | _, _ => true end) EPyAsn1 in
                  Ok (SunModel.list_eqb SunModel.ext_eqb l (c_exts c))
              end
          end
        else Err ENotImplemented
    | Some _ => Err ENotImplemented
    end.

(** ** Keys *)

(** What is handed in as the key: a private key (its public key), a public key, or a SubjectPublicKeyInfo. *)
Inductive keyarg := KPublic (k : pub) | KInfo (s : spki).
(** Models resources/compareutils.py 605-684 (_verify_spki_alg_id, validate_certificate_public_key). *)
Definition validate_key (L : lib) (c : cert) (k : keyarg) (key_name : option string) : result unit :=
  let! p := match k with KPublic p => Ok p | KInfo s => l_load L s end in
  let! x := l_load L (c_key c) in
  let! _ := guard (l_same L p x) EValueError in
  let! _ := guard (l_class L p =? l_class L x) EValueError in
  let! _ := match key_name with
            | None => Ok tt
            | Some n => let! o := l_by_name L n in guard (String.eqb o (g_oid (k_alg (c_key c)))) EValueError
            end in
  match k with
  | KPublic _ => Ok tt
  | KInfo s => guard (String.eqb (g_oid (k_alg (c_key c))) (g_oid (k_alg s))) EValueError
  end.

(** ** Revocation *)

(** rfc9480.RevDetails: certDetails and crlEntryDetails. *)
Record rdetails := { d_tpl : template; d_crl : option (list ext) }.
Definition CRL_REASONS : oid := "id_ce_cRLReasons".
(** rfc5280.CRLReason.namedValues *)
Definition REASONS : list (Z * string) :=
  [(0, "unspecified"); (1, "keyCompromise"); (2, "cACompromise"); (3, "affiliationChanged"); (4, "superseded");
   (5, "cessationOfOperation"); (6, "certificateHold"); (8, "removeFromCRL"); (9, "privilegeWithdrawn"); (10, "aACompromise")].
(** Models resources/ca_ra_utils.py 3449-3463 (_check_rev_details_mandatory_fields). *)
Definition mandatory (t : template) : result unit :=
  let! _ := guard (match t_issuer t with None => false | Some _ => true end) EAddInfoNotAvailable in
  let! _ := guard (match t_serial t with None => false | Some _ => true end) EAddInfoNotAvailable in
  match t_version t with None => Ok tt | Some v => guard (v =? 1) EBadRequest end.
(** Models resources/ca_ra_utils.py 3360-3410 (validate_rr_crl_entry_details_reason); [D] decodes a CRLReason. *)
Definition crl_reason (D : bytes -> option (Z * bytes)) (x : option (list ext)) (must : option string) : result string :=
  match x with
  | Some [e] =>
      let! _ := guard (String.eqb (x_id e) CRL_REASONS) EBadRequest in
      match D (x_val e) with
      | None => Err EBadAsn1Data
      | Some (n, rest) =>
          let! _ := guard (match rest with [] => true | _ => false end) EBadAsn1Data in
          match find (fun p => n =? fst p) REASONS with
          | None => Err EBadAsn1Data
          | Some (_, s) => let! _ := guard (match must with None => true | Some m => String.eqb s m end) EValueError in Ok s
          end
      end
  | _ => Err EBadRequest
  end.
(** Models resources/certutils.py 1053-1066 (cert_in_list); [E] is DER of a certificate. *)
Definition cert_in_list (E : cert -> bytes) (c : cert) (l : list cert) : bool := existsb (fun x => bytes_eqb (E c) (E x)) l.
(** Models resources/ca_ra_utils.py 3465-3551 (_check_cert_for_revoked, _check_cert_for_revive, validate_rev_details), without
    the text of the status. *)
Definition rev_details (L : lib) (D : bytes -> option (Z * bytes)) (E : cert -> bytes) (d : rdetails) (issued : list cert)
  (revoked : option (list cert)) : result (string * cert) :=
  let! _ := mandatory (d_tpl d) in
  let! c := contains_template L (d_tpl d) issued in
  let! r := crl_reason D (d_crl d) None in
  let! _ := match revoked with
            | None => Ok tt
            | Some l => if String.eqb r "removeFromCRL" then guard (cert_in_list E c l) EBadCertId
                        else guard (negb (cert_in_list E c l)) ECertRevoked
            end in
  Ok (r, c).
(** Models resources/ca_ra_utils.py 3557-3680 (build_rp_from_rr), after the protection has been verified: the status for each
    entry. Without the rules of the lightweight profile the entry is read again, after the variable has been overwritten. *)
Definition build_rp (L : lib) (D : bytes -> option (Z * bytes)) (E : cert -> bytes) (lwcmp : bool) (l : list rdetails)
  (issued : list cert) (revoked : option (list cert)) : result (list (result (string * cert))) :=
  let! _ := guard (negb lwcmp || match l with [_] => true | _ => false end) EBadRequest in
  mapM (fun d => let! s := match rev_details L D E d issued revoked with
                           | Ok x => Ok (Ok x)
                           | Err e => if CAModel.is_cmp e then Ok (Err e) else Err e
                           end in
                 if lwcmp then Ok s else Err EKeyError) l.
