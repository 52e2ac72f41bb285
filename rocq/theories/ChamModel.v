(** Model of paired ("chameleon") certificates and requests: pq_logic/hybrid_sig/chameleon_logic.py.

    Simplified: names, validities and subject public key infos are their DER encodings; issuerUniqueID and
    subjectUniqueID are one byte string; an empty sequence of extensions is an absent one; attributes have one value;
    loggers are left out; the catalyst key (alt_key) is not given. *)
From Coq Require Import String.
From Verif Require Import Prelude HdrModel.
Open Scope string_scope.
Open Scope Z_scope.
Open Scope list_scope.

(** ** Structures *)

Definition oid := string.
(** pq_logic/hybrid_sig/chameleon_logic.py 9-27 and pq_logic/tmp_oids.py (id_ce_deltaCertificateDescriptor,
    id_at_deltaCertificateRequest, id_at_deltaCertificateRequestSignature), rfc5280.id_ce_subjectKeyIdentifier and the
    extension request attribute of resources/certextractutils.py 291. *)
Definition DCD : oid := "2.16.840.1.114027.80.6.1".
Definition REQ : oid := "2.16.840.1.114027.80.6.2".
Definition REQSIG : oid := "2.16.840.1.114027.80.6.3".
Definition SKI : oid := "2.5.29.14".
Definition EXTREQ : oid := "1.2.840.113549.1.9.14".

(** rfc5280.Extension and rfc5280.AlgorithmIdentifier. *)
Record ext := { x_id : oid; x_crit : bool; x_val : bytes }.
Record alg := { g_oid : oid; g_par : option bytes }.
(** rfc5280.TBSCertificate and rfc9480.CMPCertificate. *)
Record tbs := { t_version : Z; t_serial : Z; t_alg : alg; t_issuer : bytes; t_validity : bytes; t_subject : bytes;
                t_spki : bytes; t_uids : bytes; t_exts : list ext }.
Record cert := { c_tbs : tbs; c_alg : alg; c_sig : bytes }.
(** pq_logic/hybrid_structures.py 129-169 (DeltaCertificateDescriptor). *)
Record dcd := { d_serial : Z; d_alg : option alg; d_issuer : option bytes; d_validity : option bytes;
                d_subject : option bytes; d_spki : bytes; d_exts : list ext; d_sig : bytes }.
(** pq_logic/hybrid_structures.py 172-198 (DeltaCertificateRequestValue). *)
Record dreq := { q_subject : option bytes; q_spki : bytes; q_exts : list ext; q_alg : option alg }.
(** rfc6402.CertificationRequest with its CertificationRequestInfo. *)
Record attr := { a_type : oid; a_val : bytes }.
Record info := { i_version : Z; i_subject : bytes; i_spki : bytes; i_attrs : list attr }.
Record csr := { r_info : info; r_alg : alg; r_sig : bytes }.
(** Public keys, with isinstance VerifyKey, and the key size of an RSA key; private keys. *)
Record pub := { p_id : bytes; p_verify : bool; p_rsa : option Z }.
Record skey := { s_pub : pub; s_id : bytes }.

(** The libraries: DER codecs, keys, signatures (resources/prepare_alg_ids.py prepare_sig_alg_id,
    resources/cryptoutils.py sign_data, resources/protectionutils.py verify_signature_with_alg_id,
    resources/keyutils.py load_public_key_from_spki, resources/convertutils.py subject_public_key_info_from_pubkey,
    resources/oid_mapping.py get_hash_from_oid with only_hash, resources/certbuildutils.py _compute_ski and
    1667-1682 _validate_name). *)
Record lib := {
  l_denc : dcd -> bytes; l_ddec : bytes -> option (dcd * bytes);
  l_qenc : dreq -> bytes; l_qdec : bytes -> result dreq;
  l_senc : bytes -> bytes; l_sdec : bytes -> result bytes;
  l_xenc : list ext -> bytes; l_xdec : bytes -> result (list ext);
  l_kenc : bytes -> bytes; l_kdec : bytes -> result bytes;
  l_tbs : tbs -> bytes; l_info : info -> bytes;
  l_load : bytes -> result pub; l_spki : pub -> bool -> bytes;
  l_hash : oid -> result (option string);
  l_alg : skey -> option string -> bool -> result alg;
  l_sign : skey -> option string -> bool -> bytes -> result bytes;
  l_verify : pub -> alg -> bytes -> bytes -> result unit;
  l_ski : pub -> bytes;
  l_name : bytes -> result unit
}.

Definition set_texts (t : tbs) (l : list ext) : tbs :=
  {| t_version := t_version t; t_serial := t_serial t; t_alg := t_alg t; t_issuer := t_issuer t;
     t_validity := t_validity t; t_subject := t_subject t; t_spki := t_spki t; t_uids := t_uids t; t_exts := l |}.
Definition set_talg (t : tbs) (a : alg) : tbs :=
  {| t_version := t_version t; t_serial := t_serial t; t_alg := a; t_issuer := t_issuer t;
     t_validity := t_validity t; t_subject := t_subject t; t_spki := t_spki t; t_uids := t_uids t; t_exts := t_exts t |}.
Definition set_attrs (i : info) (l : list attr) : info :=
  {| i_version := i_version i; i_subject := i_subject i; i_spki := i_spki i; i_attrs := l |}.

(** ** Comparisons and extensions *)

(** Models resources/certextractutils.py 118-143 (get_extension) without the criticality requirements. *)
Fixpoint get_extension (l : list ext) (o : oid) : option ext :=
  match l with
  | [] => None
  | e :: r => if String.eqb (x_id e) o then Some e else get_extension r o
  end.

(** Models resources/certbuildutils.py 2721-2734 (extensions_contains_extn_id). *)
Definition contains_id (o : oid) (l : list ext) : bool := existsb (fun e => String.eqb (x_id e) o) l.

(** Models resources/compareutils.py 414-443 (compare_alg_id_without_tag). *)
Definition compare_alg_id (a b : alg) : bool :=
  String.eqb (g_oid a) (g_oid b) &&
  match g_par a, g_par b with
  | None, None => true
  | Some x, Some y => bytes_eqb x y
  | _, _ => false
  end.

(** Models pq_logic/hybrid_sig/chameleon_logic.py 793-815 (_clean_base_and_delta_extensions). *)
Fixpoint clean_exts (base delta : list ext) : list ext :=
  match base with
  | [] => []
  | b :: r =>
      match get_extension delta (x_id b) with
      | None => clean_exts r delta
      | Some e =>
          if negb (Bool.eqb (x_crit e) (x_crit b)) then e :: clean_exts r delta
          else if negb (bytes_eqb (x_val e) (x_val b)) then e :: clean_exts r delta
          else clean_exts r delta
      end
  end.

(** ** The descriptor *)

(** Models pq_logic/hybrid_sig/chameleon_logic.py 90-140 (prepare_dcd_extension_from_delta), 52-86
    (_prepare_issuer_and_subject, _compare_times); the base certificate is given by its TBSCertificate. *)
Definition prepare_dcd (delta : cert) (base : tbs) : dcd :=
  let t := c_tbs delta in
  {| d_serial := t_serial t;
     d_alg := if compare_alg_id (t_alg t) (t_alg base) then None else Some {| g_oid := g_oid (t_alg t); g_par := None |};
     d_issuer := if bytes_eqb (t_issuer t) (t_issuer base) then None else Some (t_issuer t);
     d_validity := if bytes_eqb (t_validity t) (t_validity base) then None else Some (t_validity t);
     d_subject := if bytes_eqb (t_subject t) (t_subject base) then None else Some (t_subject t);
     d_spki := t_spki t;
     d_exts := clean_exts (t_exts base) (t_exts t);
     d_sig := c_sig delta |}.

(** Models resources/certbuildutils.py 945-1008 (sign_cert) with patch_sig_fields and without bad_sig. *)
Definition sign_cert (L : lib) (t : tbs) (k : skey) (h : option string) (pss : bool) : result cert :=
  let! a := l_alg L k h pss in
  let t' := set_talg t a in
  let! s := l_sign L k h pss (l_tbs L t') in
  Ok {| c_tbs := t'; c_alg := a; c_sig := s |}.

(** Models pq_logic/hybrid_sig/chameleon_logic.py 187-241 (build_chameleon_base_certificate) without bad_sig. *)
Definition build_paired (L : lib) (delta : cert) (base : tbs) (k : skey) (pss crit : bool) (hash : option string)
  : result cert :=
  let! h := match hash with Some x => Ok (Some x) | None => l_hash L (g_oid (t_alg (c_tbs delta))) end in
  let e := {| x_id := DCD; x_crit := crit; x_val := l_denc L (prepare_dcd delta base) |} in
  sign_cert L (set_texts base (t_exts base ++ [e])) k h pss.

(** Models pq_logic/hybrid_sig/chameleon_logic.py 248-299 (validate_dcd_extension), given the extensions of the
    descriptor; a dictionary keeps the last extension of a type. *)
Fixpoint last_extension (l : list ext) (o : oid) : option ext :=
  match l with
  | [] => None
  | e :: r => match last_extension r o with
              | Some x => Some x
              | None => if String.eqb (x_id e) o then Some e else None
              end
  end.
Fixpoint validate_dcd_exts (dl base : list ext) : result unit :=
  match dl with
  | [] => Ok tt
  | e :: r =>
      let! _ := match last_extension base (x_id e) with
                | Some b => guard (negb (Bool.eqb (x_crit e) (x_crit b) && bytes_eqb (x_val e) (x_val b))) EValueError
                | None => Ok tt
                end in
      let! _ := guard (match last_extension base (x_id e) with Some _ => true | None => String.eqb (x_id e) DCD end)
                      EValueError in
      let! _ := guard (negb (String.eqb (x_id e) DCD)) EValueError in
      validate_dcd_exts r base
  end.
(** The same, given a certificate: what follows the descriptor is ignored, and a certificate without a descriptor is a
    TypeError (None is subscripted). *)
Definition validate_dcd_cert (L : lib) (c : cert) (base : list ext) : result unit :=
  match get_extension (t_exts (c_tbs c)) DCD with
  | None => Err ETypeError
  | Some e =>
      match l_ddec L (x_val e) with
      | None => Err EBadAsn1Data
      | Some (d, _) => validate_dcd_exts (d_exts d) base
      end
  end.

(** ** The delta certificate out of the paired one *)

(** The descriptor read by pq_logic/hybrid_sig/chameleon_logic.py 1080-1094 and 1181-1191. *)
Definition find_dcd (L : lib) (c : cert) : result dcd :=
  match get_extension (t_exts (c_tbs c)) DCD with
  | None => Err EValueError
  | Some e =>
      match l_ddec L (x_val e) with
      | None => Err EPyAsn1
      | Some (d, rest) => match rest with [] => Ok d | _ => Err EBadAsn1Data end
      end
  end.

(** Models pq_logic/hybrid_sig/chameleon_logic.py 1138-1149: the first extension of the type is overwritten. *)
Fixpoint replace_ext (l : list ext) (e : ext) : result (list ext) :=
  match l with
  | [] => Err EValueError
  | x :: r => if String.eqb (x_id x) (x_id e)
              then Ok ({| x_id := x_id x; x_crit := x_crit e; x_val := x_val e |} :: r)
              else let! r' := replace_ext r e in Ok (x :: r')
  end.
Fixpoint replace_exts (l new : list ext) : result (list ext) :=
  match new with
  | [] => Ok l
  | e :: r => let! l' := replace_ext l e in replace_exts l' r
  end.

(** Models pq_logic/hybrid_sig/chameleon_logic.py 1058-1154 (build_delta_cert_from_paired_cert). *)
Definition or_else {A} (o : option A) (d : A) : A := match o with Some x => x | None => d end.
Definition rebuild (L : lib) (c : cert) : result cert :=
  let! d := find_dcd L c in
  let t := c_tbs c in
  let! xs := replace_exts (filter (fun e => negb (String.eqb (x_id e) DCD)) (t_exts t)) (d_exts d) in
  Ok {| c_tbs := {| t_version := t_version t; t_serial := d_serial d; t_alg := or_else (d_alg d) (t_alg t);
                    t_issuer := or_else (d_issuer d) (t_issuer t);
                    t_validity := or_else (d_validity d) (t_validity t);
                    t_subject := or_else (d_subject d) (t_subject t);
                    t_spki := d_spki d; t_uids := t_uids t; t_exts := xs |};
        c_alg := or_else (d_alg d) (c_alg c);
        c_sig := d_sig d |}.

(** Models pq_logic/hybrid_sig/chameleon_logic.py 1158-1191 (get_chameleon_delta_public_key). *)
Definition delta_public_key (L : lib) (c : cert) : result bytes :=
  let! d := find_dcd L c in Ok (d_spki d).

(** ** Paired requests *)

(** Models pq_logic/hybrid_sig/chameleon_logic.py 308-355 (prepare_delta_cert_req) with the algorithm. *)
Definition prepare_delta_req (L : lib) (k : skey) (subject : option bytes) (xs : list ext) (h : option string) (pss : bool)
  : result dreq :=
  let! a := l_alg L k h pss in
  Ok {| q_subject := subject; q_spki := l_spki L (s_pub k) false; q_exts := xs; q_alg := Some a |}.

(** Models pq_logic/hybrid_sig/chameleon_logic.py 359-453 (build_paired_csr) and resources/certbuildutils.py 261-307
    (build_csr without a signature); the last decoding may bring the attributes, a SET OF, into another order, which is
    left to the theorems. *)
Definition build_paired_csr (L : lib) (bk dk : skey) (subject : bytes) (bx : option (list ext))
                            (dsubject : option bytes) (dx : list ext) (h : option string) (pss bad : bool) : result csr :=
  let attrs0 := match bx with Some l => [{| a_type := EXTREQ; a_val := l_xenc L l |}] | None => [] end in
  let! q := prepare_delta_req L dk dsubject dx h pss in
  let i1 := {| i_version := 0; i_subject := subject; i_spki := l_spki L (s_pub bk) pss;
               i_attrs := attrs0 ++ [{| a_type := REQ; a_val := l_qenc L q |}] |} in
  let! ds := l_sign L dk h pss (l_info L i1) in
  let! ds := if bad then manipulate_first_byte ds else Ok ds in
  let i2 := set_attrs i1 (i_attrs i1 ++ [{| a_type := REQSIG; a_val := l_senc L ds |}]) in
  let! s := l_sign L bk h pss (l_info L i2) in
  let! a := l_alg L bk h pss in
  Ok {| r_info := i2; r_alg := a; r_sig := s |}.

(** Models pq_logic/hybrid_sig/chameleon_logic.py 489-519 (extract_chameleon_attributes). *)
Fixpoint extract_attrs (L : lib) (l : list attr) (kept : list attr) (q : option dreq) (s : option bytes)
  : result (list attr * option dreq * option bytes) :=
  match l with
  | [] => Ok (kept, q, s)
  | a :: r =>
      if String.eqb (a_type a) REQ then let! x := l_qdec L (a_val a) in extract_attrs L r (kept ++ [a]) (Some x) s
      else if String.eqb (a_type a) REQSIG then let! x := l_sdec L (a_val a) in extract_attrs L r kept q (Some x)
      else extract_attrs L r (kept ++ [a]) q s
  end.

(** Models pq_logic/hybrid_sig/chameleon_logic.py 523-537 (get_delta_request_signature). *)
Definition delta_request_signature (L : lib) (c : csr) : result bytes :=
  let! (_, _, s) := extract_attrs L (i_attrs (r_info c)) [] None None in
  match s with Some x => Ok x | None => Err EValueError end.

(** Models pq_logic/hybrid_sig/chameleon_logic.py 462-485 (load_chameleon_csr_delta_key_and_sender). *)
Fixpoint first_req (L : lib) (l : list attr) : result (option dreq) :=
  match l with
  | [] => Ok None
  | a :: r => if String.eqb (a_type a) REQ then let! x := l_qdec L (a_val a) in Ok (Some x) else first_req L r
  end.
Definition delta_key_and_sender (L : lib) (c : csr) : result (pub * bytes) :=
  let! o := first_req L (i_attrs (r_info c)) in
  match o with
  | None => Err EValueError
  | Some q => let! p := l_load L (q_spki q) in
              Ok (p, match q_subject q with Some n => n | None => i_subject (r_info c) end)
  end.

(** Models resources/certutils.py 2174-2207 (verify_csr_signature). *)
Definition verify_csr (L : lib) (c : csr) : result unit :=
  let! p := l_load L (i_spki (r_info c)) in
  let! _ := guard (p_verify p) EValueError in
  match l_verify L p (r_alg c) (l_info L (r_info c)) (r_sig c) with
  | Err EInvalidSignature => Err EBadPOP
  | x => x
  end.

(** Models pq_logic/hybrid_sig/chameleon_logic.py 541-606 (verify_paired_csr_signature); BadAltPOP is
    [EInvalidAltSignature], and the only errors turned into BadCertTemplate are plain ValueErrors. *)
Definition verify_paired_csr (L : lib) (c : csr) : result dreq :=
  let! _ := verify_csr L c in
  let! (kept, oq, os) := extract_attrs L (i_attrs (r_info c)) [] None None in
  match oq with
  | None => Err EValueError
  | Some q =>
      match os with
      | None => Err EValueError
      | Some s =>
          let a := match q_alg q with Some x => x | None => r_alg c end in
          let! p := l_load L (q_spki q) in
          let data := l_info L (set_attrs (r_info c) kept) in
          match (let! _ := guard (p_verify p) EValueError in l_verify L p a data s) with
          | Ok _ => Ok q
          | Err EValueError => Err EBadCertTemplate
          | Err EInvalidSignature => Err EInvalidAltSignature
          | Err e => Err e
          end
      end
  end.

(** ** Issuing *)

(** Models pq_logic/hybrid_sig/chameleon_logic.py 659-694 (_validate_keys) with the default bounds. *)
Definition pub_eqb (a b : pub) : bool := bytes_eqb (p_id a) (p_id b).
Definition rsa_size_ok (p : pub) : bool :=
  match p_rsa p with None => true | Some n => negb ((n <? 2048) || (8192 <? n)) end.
Definition validate_keys (base delta : pub) : result unit :=
  let! _ := guard (p_verify base) EBadCertTemplate in
  let! _ := guard (p_verify delta) EBadCertTemplate in
  let! _ := guard (negb (pub_eqb delta base)) EBadCertTemplate in
  let! _ := guard (rsa_size_ok delta) EBadCertTemplate in
  guard (rsa_size_ok base) EBadCertTemplate.

(** Models resources/certbuildutils.py 392-430 (prepare_ski_extension). *)
Definition ski_ext (L : lib) (p : pub) (crit : bool) : ext :=
  {| x_id := SKI; x_crit := crit; x_val := l_kenc L (l_ski L p) |}.

(** Models resources/certbuildutils.py 3323-3386 (validate_subject_key_identifier_extension) for structures whose
    extensions and key are given. *)
Definition validate_ski (L : lib) (xs : list ext) (p : pub) (crit : option bool) (prep : bool) : result (option ext) :=
  let def := if prep then Some (ski_ext L p (match crit with Some c => c | None => false end)) else None in
  match get_extension xs SKI with
  | None => Ok def
  | Some e =>
      let! k := l_kdec L (x_val e) in
      let! _ := guard (bytes_eqb k (l_ski L p)) EBadCertTemplate in
      match crit with
      | Some c => if Bool.eqb (x_crit e) c then Ok (Some e)
                  else Ok (Some (match def with
                                 | Some d => d
                                 | None => {| x_id := SKI; x_crit := c; x_val := l_kenc L k |}
                                 end))
      | None => Ok (Some e)
      end
  end.

(** Models pq_logic/hybrid_sig/chameleon_logic.py 697-738 (_parse_extension). *)
Fixpoint parse_loop (xs target : list ext) : result (list ext) :=
  match xs with
  | [] => Ok target
  | x :: r =>
      let! _ := guard (negb (String.eqb (x_id x) DCD)) EBadCertTemplate in
      if String.eqb (x_id x) SKI then parse_loop r target
      else parse_loop r (if contains_id (x_id x) target then target else target ++ [x])
  end.
Definition parse_extension (L : lib) (xs : list ext) (p : pub) (target : list ext) (ski : option bool) (crit : bool)
  : result (list ext) :=
  match xs with
  | [] => Ok target
  | _ =>
      let! k := validate_ski L xs p None (match ski with Some true => true | _ => false end) in
      let target := match k with
                    | None => target
                    | Some e => match ski with
                                | Some false => target ++ [ski_ext L p crit]
                                | _ => target ++ [e]
                                end
                    end in
      parse_loop xs target
  end.

(** Models pq_logic/hybrid_sig/chameleon_logic.py 741-790 (_process_remove_extensions). *)
Fixpoint add_shared (oids : list oid) (src target : list ext) : result (list ext) :=
  match oids with
  | [] => Ok target
  | o :: r =>
      if negb (contains_id o target) && negb (String.eqb o SKI)
      then match get_extension src o with
           | Some e => add_shared r src (target ++ [e])
           | None => Err EPyAsn1
           end
      else add_shared r src target
  end.
Definition not_false (o : option bool) : bool := match o with Some false => false | _ => true end.
Definition opt_list {A} (o : option A) : list A := match o with Some x => [x] | None => [] end.
Definition remove_extensions (L : lib) (bx : list ext) (bp : pub) (dx : list ext) (dp : pub) (oids : list oid)
                             (ski : option bool) (crit : bool) (add : list ext) : result (list ext * list ext) :=
  let! _ := guard (match bx with [] => false | _ => true end) EValueError in
  let! bk := validate_ski L bx bp None (not_false ski) in
  let! dk := validate_ski L dx dp (Some crit) (not_false ski) in
  let b0 := (if not_false ski then opt_list bk else []) ++ add in
  let d0 := (if not_false ski then opt_list dk else []) ++ add in
  let! b := add_shared oids bx b0 in
  let! d := add_shared oids dx d0 in
  Ok (b, d).

(** Models resources/certextractutils.py 282-299 (extract_extensions_from_csr). *)
Fixpoint csr_extensions (L : lib) (l : list attr) : result (option (list ext)) :=
  match l with
  | [] => Ok None
  | a :: r => if String.eqb (a_type a) EXTREQ then let! x := l_xdec L (a_val a) in Ok (Some x) else csr_extensions L r
  end.

(** The options of pq_logic/hybrid_sig/chameleon_logic.py 960-1003. *)
Record opts := { o_ski : option bool; o_add : list ext; o_crit : bool; o_strict : bool; o_same : bool;
                 o_pss : bool; o_hash : string; o_validity : bytes; o_serial1 : Z; o_serial2 : Z }.

(** Models pq_logic/hybrid_sig/chameleon_logic.py 818-848 (_process_extension_oids). *)
Definition in_ids (o : oid) (l : list ext) : bool := existsb (String.eqb o) (map x_id l).
Definition not_included (bx dx : list ext) : list oid := filter (fun o => negb (in_ids o dx)) (map x_id bx).
Definition shared (bx dx : list ext) : list oid := filter (fun o => in_ids o dx) (map x_id bx).

(** Models pq_logic/hybrid_sig/chameleon_logic.py 852-956 (process_extensions_for_chameleon).  When only the delta
    request has extensions, the function returns the one object it has extended twice. *)
Definition process_extensions (L : lib) (c : csr) (q : dreq) (o : opts) : result (list ext * list ext) :=
  let add := o_add o in
  let yes := match o_ski o with Some true => true | _ => false end in
  let! ox := csr_extensions L (i_attrs (r_info c)) in
  match ox, q_exts q with
  | None, [] =>
      if yes then
        let! bp := l_load L (i_spki (r_info c)) in
        let! dp := l_load L (q_spki q) in
        Ok (add ++ [ski_ext L bp (o_crit o)], add ++ [ski_ext L dp (o_crit o)])
      else Ok (add, add)
  | Some bx, [] =>
      let! bp := l_load L (i_spki (r_info c)) in
      let! dp := l_load L (q_spki q) in
      let! b := parse_extension L bx bp bx (o_ski o) (o_crit o) in
      Ok (b, if yes then add ++ [ski_ext L dp (o_crit o)] else add)
  | None, dx =>
      let! dp := l_load L (q_spki q) in
      let! d := parse_extension L dx dp add (o_ski o) (o_crit o) in
      Ok (d, d)
  | Some bx, dx =>
      let! bp := l_load L (i_spki (r_info c)) in
      let! dp := l_load L (q_spki q) in
      match not_included bx dx with
      | [] => remove_extensions L bx bp dx dp (shared bx dx) (o_ski o) (o_crit o) add
      | _ =>
          if o_strict o then Err EBadCertTemplate
          else if o_same o then remove_extensions L bx bp dx dp (shared bx dx) (o_ski o) (o_crit o) add
          else
            let! b := parse_extension L bx bp add (o_ski o) (o_crit o) in
            let! d := parse_extension L dx dp add (o_ski o) (o_crit o) in
            Ok (b, d)
      end
  end.

(** Models resources/certbuildutils.py 1951-2048 (build_cert_from_csr) with extensions, without those of the request
    and without a subject key identifier of its own, and 1858-1895 (_sign_cert) without a second key. *)
Definition build_cert (L : lib) (subject spki : bytes) (xs : list ext) (serial : Z) (validity : bytes) (issuer : bytes)
                      (k : skey) (h : string) (pss : bool) : result cert :=
  let! _ := l_name L subject in
  let! a := l_alg L k (Some h) pss in
  let! _ := l_load L spki in
  sign_cert L {| t_version := 2; t_serial := serial; t_alg := a; t_issuer := issuer; t_validity := validity;
                 t_subject := subject; t_spki := spki; t_uids := []; t_exts := xs |} k (Some h) pss.

(** Models pq_logic/hybrid_sig/chameleon_logic.py 960-1055 (build_chameleon_cert_from_paired_csr) and 610-656
    (build_delta_cert); serial numbers are drawn outside, and the base certificate is signed with the default hash. *)
Definition issue_paired (L : lib) (c : csr) (k : skey) (issuer : bytes) (o : opts) : result (cert * cert) :=
  let! q := verify_paired_csr L c in
  let! bp := l_load L (i_spki (r_info c)) in
  let! dp := l_load L (q_spki q) in
  let! _ := validate_keys bp dp in
  let! (bx, dx) := process_extensions L c q o in
  let! b := build_cert L (i_subject (r_info c)) (i_spki (r_info c)) bx (o_serial1 o) (o_validity o) issuer k "sha256"
                       (o_pss o) in
  let! d := build_cert L (match q_subject q with Some n => n | None => i_subject (r_info c) end) (q_spki q) dx
                       (o_serial2 o) (o_validity o) issuer k (o_hash o) (o_pss o) in
  let! p := build_paired L d (c_tbs b) k (o_pss o) false None in
  Ok (p, d).
