(** Model of catalyst certificates and certificate revocation lists: an alternative key and an alternative signature in
    extensions (pq_logic/hybrid_sig/catalyst_logic.py 35-583, pq_logic/pq_verify_logic.py 614-703,
    resources/certextractutils.py 118-143).

    Simplified: object identifiers are the names of ProtTab.v; the fields of a TBSCertificate that these functions only
    copy are one value, and so are those of a TBSCertList; a certificate or list changed in place is returned. Signing,
    verifying, DER and loading of keys are parameters. *)
From Coq Require Import String Ascii.
From Verif Require Import Prelude PyStr ProtTab.
Open Scope string_scope.
Open Scope Z_scope.
Open Scope list_scope.
Local Notation oid := ProtTab.oid.

(** ** Structures *)

(** rfc5280: AlgorithmIdentifier, SubjectPublicKeyInfo, Extension. *)
Record alg := { g_oid : oid; g_par : option bytes }.
Record spki := { k_alg : alg; k_bits : bytes }.
Record ext := { x_id : oid; x_crit : bool; x_val : bytes }.
(** rfc5280.TBSCertificate: the signature algorithm, the public key, the extensions ([None]: absent), the rest. *)
Record tbs := { t_rest : bytes; t_alg : option alg; t_spki : spki; t_exts : option (list ext) }.
Record cert := { c_tbs : tbs; c_alg : option alg; c_sig : bytes }.
(** pq_logic/hybrid_structures.py (CatalystPreTBSCertificate): no signature algorithm. An empty list of extensions is
    absent. *)
Record pre := { p_rest : bytes; p_spki : spki; p_exts : list ext }.
(** rfc5280.CertificateList: the rest of the TBSCertList, its extensions, signatureAlgorithm, signature. *)
Record crl := { r_rest : bytes; r_exts : option (list ext); r_alg : alg; r_sig : bytes }.
(** A public and a private key. *)
Record pub := { u_id : bytes }.
Record skey := { s_id : bytes }.

Definition ALT_SPKI : oid := "id_ce_subjectAltPublicKeyInfo".
Definition ALT_ALG : oid := "id_ce_altSignatureAlgorithm".
Definition ALT_SIG : oid := "id_ce_altSignatureValue".
Definition set_tbs (c : cert) (t : tbs) : cert := {| c_tbs := t; c_alg := c_alg c; c_sig := c_sig c |}.
Definition set_talg (t : tbs) (a : alg) : tbs :=
  {| t_rest := t_rest t; t_alg := Some a; t_spki := t_spki t; t_exts := t_exts t |}.
Definition exts_of (o : option (list ext)) : list ext := match o with Some l => l | None => [] end.
(** [.append] of an optional list. *)
Definition add_ext (o : option (list ext)) (e : ext) : option (list ext) := Some (exts_of o ++ [e]).
Definition set_texts (t : tbs) (x : option (list ext)) : tbs :=
  {| t_rest := t_rest t; t_alg := t_alg t; t_spki := t_spki t; t_exts := x |}.
Definition set_rexts (r : crl) (x : option (list ext)) : crl :=
  {| r_rest := r_rest r; r_exts := x; r_alg := r_alg r; r_sig := r_sig r |}.

(** What is called: DER of the structures, [str] of an object identifier, load_public_key_from_spki, the class of verifying
    keys, the public key of a private key, subject_public_key_info_from_pubkey, prepare_sig_alg_id, sign_data,
    verify_signature_with_alg_id, cryptoutils.verify_signature and manipulate_bytes_based_on_key. *)
Record lib := {
  l_algenc : alg -> bytes;
  l_algdec : bytes -> option (alg * bytes);
  l_spkienc : spki -> bytes;
  l_spkidec : bytes -> option (spki * bytes);
  l_bitsenc : bytes -> bytes;
  l_bitsdec : bytes -> option (bytes * bytes);
  l_tbsenc : tbs -> bytes;
  l_preenc : pre -> bytes;
  l_crlenc : bytes -> option (list ext) -> bytes;
  l_str : oid -> string;
  l_load : spki -> result pub;
  l_verifies : pub -> bool;
  l_pub : skey -> pub;
  l_spki : pub -> result spki;
  l_sigalg : skey -> option string -> bool -> result alg;
  l_sign : skey -> bytes -> option string -> bool -> result bytes;
  l_verify_alg : pub -> alg -> bytes -> bytes -> result unit;
  l_verify_hash : pub -> option string -> bytes -> bytes -> result unit;
  l_spoil : bytes -> skey -> result bytes
}.

(** ** Extensions *)

(** Models resources/certextractutils.py 118-143 (get_extension), without the demand of criticality. *)
Fixpoint get_extension (l : list ext) (o : oid) : option ext :=
  match l with
  | [] => None
  | e :: r => if String.eqb (x_id e) o then Some e else get_extension r o
  end.
(** The value of the last extension of a type: what a dictionary filled in order keeps. *)
Fixpoint last_value (l : list ext) (o : oid) : option bytes :=
  match l with
  | [] => None
  | e :: r => match last_value r o with
              | Some v => Some v
              | None => if String.eqb (x_id e) o then Some (x_val e) else None
              end
  end.
(** Models pq_logic/hybrid_sig/catalyst_logic.py 35-74 (prepare_subject_alt_public_key_info_extn), with a public key. *)
Definition prepare_alt_spki (L : lib) (k : pub) (crit : bool) : result ext :=
  let! s := l_spki L k in
  Ok {| x_id := ALT_SPKI; x_crit := crit; x_val := l_spkienc L s |}.
(** Models pq_logic/hybrid_sig/catalyst_logic.py 78-124 (prepare_alt_sig_alg_id_extn): a key takes precedence over an
    identifier. *)
Definition prepare_alt_alg (L : lib) (a : option alg) (crit : bool) (h : option string) (pss : bool) (k : option skey)
  : result ext :=
  let! a' := match k, a with
             | Some x, _ => l_sigalg L x h pss
             | None, Some y => Ok y
             | None, None => Err EValueError
             end in
  Ok {| x_id := ALT_ALG; x_crit := crit; x_val := l_algenc L a' |}.
(** Models pq_logic/hybrid_sig/catalyst_logic.py 128-153 (prepare_alt_signature_value_extn). *)
Definition prepare_alt_sig (L : lib) (s : bytes) (crit : bool) : ext :=
  {| x_id := ALT_SIG; x_crit := crit; x_val := l_bitsenc L s |}.

(** ** Certificates *)

(** Models pq_logic/hybrid_sig/catalyst_logic.py 157-183 (convert_tbs_to_pre_tbs). *)
Definition pre_tbs (t : tbs) : pre :=
  {| p_rest := t_rest t; p_spki := t_spki t;
     p_exts := filter (fun e => negb (String.eqb (x_id e) ALT_SIG)) (exts_of (t_exts t)) |}.
(** Models pq_logic/hybrid_sig/catalyst_logic.py 187-197 (extract_alt_signature_data). *)
Definition alt_data (L : lib) (t : tbs) : bytes := l_preenc L (pre_tbs t).
(** Models resources/certbuildutils.py 945-1008 (sign_cert) with patch_sig_fields and without bad_sig. *)
Definition sign_cert (L : lib) (k : skey) (c : cert) (h : option string) (pss : bool) : result cert :=
  let! a := l_sigalg L k h pss in
  let t := set_talg (c_tbs c) a in
  let! s := l_sign L k (l_tbsenc L t) h pss in
  Ok {| c_tbs := t; c_alg := Some a; c_sig := s |}.
(** Models pq_logic/hybrid_sig/catalyst_logic.py 200-253 (sign_cert_catalyst). *)
Definition sign_cert_catalyst (L : lib) (c : cert) (pq trad : skey) (pqh h : option string) (pss crit bad : bool)
  : result cert :=
  let! aa := l_sigalg L pq pqh pss in
  let! a := l_sigalg L trad h pss in
  let! e1 := prepare_alt_alg L (Some aa) crit (Some "sha256") false None in
  let! e2 := prepare_alt_spki L (l_pub L pq) crit in
  let t := set_texts (set_talg (c_tbs c) a) (add_ext (add_ext (t_exts (c_tbs c)) e1) e2) in
  let! s := l_sign L pq (alt_data L t) pqh false in
  let! s' := (if bad then l_spoil L s pq else Ok s) in
  let t' := set_texts t (add_ext (t_exts t) (prepare_alt_sig L s' crit)) in
  sign_cert L trad {| c_tbs := t'; c_alg := Some a; c_sig := c_sig c |} h pss.

(** The values of the three extensions. *)
Record values := { v_sig : bytes; v_spki : spki; v_alg : alg }.
(** A decoding whose remainder is dropped; the error of the decoder is BadAsn1Data (catalyst_logic.py 339-340). *)
Definition decoded {A} (d : bytes -> option (A * bytes)) (b : bytes) : result (A * bytes) :=
  match d b with Some p => Ok p | None => Err EBadAsn1Data end.
(** The algorithm demanded (catalyst_logic.py 324-331). *)
Definition alg_demanded (L : lib) (a : alg) (must : option string) : result unit :=
  match must with
  | None => Ok tt
  | Some n =>
      if has_char "."%char n then guard (String.eqb (l_str L (g_oid a)) n) EBadAlg
      else match rlookup n PQ_OID_2_NAME with
           | None => Err EKeyError
           | Some o => guard (String.eqb (l_str L o) (l_str L (g_oid a))) EBadAlg
           end
  end.
(** Models pq_logic/hybrid_sig/catalyst_logic.py 260-340 (validate_catalyst_extensions). *)
Definition validate_extensions (L : lib) (c : cert) (must : option string) : result (option values) :=
  match t_exts (c_tbs c) with
  | None => Ok None
  | Some l =>
      match last_value l ALT_SPKI, last_value l ALT_ALG, last_value l ALT_SIG with
      | None, None, None => Ok None
      | Some vk, Some va, Some vs =>
          let! (k, _) := decoded (l_spkidec L) vk in
          let! (a, _) := decoded (l_algdec L) va in
          let! (s, rest) := decoded (l_bitsdec L) vs in
          let! _ := guard (match rest with [] => true | _ => false end) EBadAsn1Data in
          let! _ := alg_demanded L a must in
          Ok (Some {| v_sig := s; v_spki := k; v_alg := a |})
      | _, _, _ => Err EValueError
      end
  end.
(** convertutils.ensure_is_verify_key. *)
Definition ensure_verify (L : lib) (k : pub) : result pub := let! _ := guard (l_verifies L k) EValueError in Ok k.
(** Models resources/certutils.py 179-196 (verify_cert_signature) with the key of the issuer. A certificate without the
    algorithm cannot be encoded. *)
Definition verify_cert_signature (L : lib) (c : cert) (k : pub) : result unit :=
  let! k' := ensure_verify L k in
  match t_alg (c_tbs c) with
  | None => Err EPyAsn1
  | Some a => l_verify_alg L k' a (l_tbsenc L (c_tbs c)) (c_sig c)
  end.
(** Models pq_logic/hybrid_sig/catalyst_logic.py 343-402 (verify_catalyst_signature). *)
Definition verify_catalyst (L : lib) (c : cert) (issuer : option cert) (key : option pub) (must : option string) : result unit :=
  let! v := validate_extensions L c must in
  match v with
  | None => Err EValueError
  | Some v =>
      let! k := match issuer, key with
                | Some i, _ => l_load L (t_spki (c_tbs i))
                | None, Some k => Ok k
                | None, None => l_load L (t_spki (c_tbs c))
                end in
      let! k' := ensure_verify L k in
      let! _ := verify_cert_signature L c k' in
      let! q := l_load L (v_spki v) in
      let! h := get_hash_from_oid (g_oid (v_alg v)) true in
      let! q' := ensure_verify L q in
      l_verify_hash L q' h (alt_data L (c_tbs c)) (v_sig v)
  end.
(** Models pq_logic/hybrid_sig/catalyst_logic.py 460-498 (load_catalyst_public_key). A failure of the decoder is not
    translated. *)
Definition load_catalyst_key (L : lib) (l : list ext) : result pub :=
  match get_extension l ALT_SPKI with
  | None => Err EValueError
  | Some e =>
      match l_spkidec L (x_val e) with
      | None => Err EPyAsn1
      | Some (s, rest) =>
          let! _ := guard (match rest with [] => true | _ => false end) EBadAsn1Data in
          l_load L s
      end
  end.

(** ** Revocation lists *)

(** [alt_hash_alg or hash_alg]. *)
Definition str_or (a b : option string) : option string :=
  match a with Some s => if String.eqb s "" then b else a | None => b end.
(** Models pq_logic/hybrid_sig/catalyst_logic.py 502-583 (sign_crl_catalyst). The signatures are made without
    [use_rsa_pss] although the identifiers are prepared with it. *)
Definition sign_crl (L : lib) (r : crl) (ca : skey) (alt : option skey) (incl : bool) (h ah : option string)
    (pss crit bad badalt : bool) : result crl :=
  let! a := l_sigalg L ca h pss in
  let! x := match alt with
            | None => Ok (r_exts r)
            | Some k =>
                let! e1 := prepare_alt_alg L None crit (str_or ah h) pss (Some k) in
                let x1 := add_ext (r_exts r) e1 in
                let! x2 := (if incl then let! e2 := prepare_alt_spki L (l_pub L k) crit in Ok (add_ext x1 e2) else Ok x1) in
                let! s := l_sign L k (l_crlenc L (r_rest r) x2 ++ l_algenc L a) (str_or ah h) false in
                let! s' := (if badalt then l_spoil L s k else Ok s) in
                Ok (add_ext x2 (prepare_alt_sig L s' crit))
            end in
  let! s := l_sign L ca (l_crlenc L (r_rest r) x) h false in
  let! s' := (if bad then l_spoil L s ca else Ok s) in
  Ok {| r_rest := r_rest r; r_exts := x; r_alg := a; r_sig := s' |}.

(** What the loop of pq_verify_logic.py 646-683 has found: the algorithm, the signature, the key, the extensions kept. *)
Record scan := { n_alg : option alg; n_sig : option bytes; n_key : option pub; n_exts : list ext }.
Definition whole {A} (d : bytes -> option (A * bytes)) (b : bytes) : result A :=
  match d b with
  | None => Err EPyAsn1
  | Some (x, []) => Ok x
  | Some (_, _) => Err EBadAsn1Data
  end.
Fixpoint crl_scan (L : lib) (l : list ext) (n : scan) : result scan :=
  match l with
  | [] => Ok n
  | e :: r =>
      if String.eqb (x_id e) ALT_SIG then
        let! s := whole (l_bitsdec L) (x_val e) in
        crl_scan L r {| n_alg := n_alg n; n_sig := Some s; n_key := n_key n; n_exts := n_exts n |}
      else if String.eqb (x_id e) ALT_ALG then
        let! a := whole (l_algdec L) (x_val e) in
        crl_scan L r {| n_alg := Some a; n_sig := n_sig n; n_key := n_key n; n_exts := n_exts n ++ [e] |}
      else if String.eqb (x_id e) ALT_SPKI then
        let! s := whole (l_spkidec L) (x_val e) in
        let! k := match n_key n with Some k => Ok k | None => l_load L s end in
        crl_scan L r {| n_alg := n_alg n; n_sig := n_sig n; n_key := Some k; n_exts := n_exts n ++ [e] |}
      else crl_scan L r {| n_alg := n_alg n; n_sig := n_sig n; n_key := n_key n; n_exts := n_exts n ++ [e] |}
  end.
(** An invalid alternative signature has its own exception (pq_verify_logic.py 696-705). *)
Definition alt_error (r : result unit) : result unit :=
  match r with Err EInvalidSignature => Err EInvalidAltSignature | _ => r end.
(** Models pq_logic/pq_verify_logic.py 614-703 (verify_crl_signature); the second component is the list as the function
    leaves it. The certificate of the CA is given by its public key. *)
Definition verify_crl (L : lib) (r : crl) (ca : spki) (alt : option pub) (must : bool) : result unit * crl :=
  match (let! h := get_hash_from_oid (g_oid (r_alg r)) true in
         let! k := l_load L ca in
         let! k' := ensure_verify L k in
         let! _ := l_verify_hash L k' h (l_crlenc L (r_rest r) (r_exts r)) (r_sig r) in
         match r_exts r with
         | None => Ok None
         | Some l => let! n := crl_scan L l {| n_alg := None; n_sig := None; n_key := alt; n_exts := [] |} in Ok (Some n)
         end) with
  | Err e => (Err e, r)
  | Ok None => (guard (negb must) EValueError, r)
  | Ok (Some n) =>
      let r' := set_rexts r (match n_exts n with [] => None | l => Some l end) in
      (match n_alg n, n_key n, n_sig n with
       | Some a, Some k, Some s =>
           let! k' := ensure_verify L k in
           alt_error (l_verify_alg L k' a (l_crlenc L (r_rest r') (r_exts r') ++ l_algenc L (r_alg r)) s)
       | _, _, _ => Err EValueError
       end, r')
  end.
