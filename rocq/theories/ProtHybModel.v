(** Model of hybrid message protection (resources/protectionutils.py 2679-3060, pq_logic/pq_verify_logic.py 106-220 and
    445-610): composite signatures, an alternative signature in generalInfo, messages carried in generalInfo. *)
From Coq Require Import String Ascii.
From Verif Require Import Prelude PyStr CompLoadModel HdrModel ProtTab ProtModel.
Open Scope string_scope.
Open Scope Z_scope.
Local Notation length := List.length.

(** The algorithm of the public key of a certificate (pq_logic/pq_verify_logic.py 201-220): traditional, post-quantum,
    composite, or unknown. *)
Inductive pkclass := CTrad | CPq | CComp | COther.
(** What hybrid protection calls: composing a composite key (CompositeSigPrivateKey, CompositeSigPublicKey), the class of
    the key of a certificate, the alternative key of a certificate (pq_logic/pq_verify_logic.py 706-796,
    may_extract_alt_key_from_cert), the chain of a certificate (build_migration_cert_chain), encoding and decoding a
    SubjectPublicKeyInfo (decoding gives what load_public_key_from_spki makes of it) and a BIT STRING, and the change of a
    stateful signature (resources/utils.py 816-900, manipulate_pq_stateful_signature_bytes). *)
Record hyb := {
  y_combine : key -> key -> result key;
  y_class : cert -> pkclass;
  y_alt : cert -> list cert -> result (option key);
  y_chain : cert -> list cert -> result (list cert);
  y_enc_spki : key -> result bytes;
  y_dec_spki : bytes -> option (result key * bytes);
  y_enc_bits : bytes -> bytes;
  y_dec_bits : bytes -> option (bytes * bytes);
  y_stf : bytes -> key -> result bytes
}.
Definition set_infos (h : header) (l : list info) : header :=
  {| h_sender := h_sender h; h_alg := h_alg h; h_kid := h_kid h; h_tx := h_tx h; h_info := l; h_rest := h_rest h |}.
Definition alt_alg : string := "id_ce_altSignatureAlgorithm".
Definition alt_spki : string := "id_ce_subjectAltPublicKeyInfo".
Definition alt_sig : string := "id_ce_altSignatureValue".

(** ** Protecting *)

(** The keyword arguments of protect_hybrid_pkimessage; [yo_dir] are the certificates of the directory certs_path. *)
Record yopts := { yo_cert : option cert; yo_dir : list cert; yo_exclude : bool; yo_patch : bool; yo_hash : option string;
                  yo_pss : option bool; yo_bad : bool; yo_include : bool }.
(** Models resources/utils.py 778-812 (manipulate_bytes_based_on_key). *)
Definition manipulate_bytes_based_on_key (Y : hyb) (v : bytes) (k : key) : result bytes :=
  match k_kind k with KStf _ => y_stf Y v k | _ => manipulate_first_byte v end.
(** Models resources/protectionutils.py 2704-2741 (_compute_and_prepare_pkimessage_sig_protection). *)
Definition sig_protection (L : lib) (Y : hyb) (rnd rnd2 : Z -> bytes) (k : key) (m : msg) (o : yopts) : result msg :=
  let! a := prepare_sig_alg_id rnd (k_kind k) (dflt (yo_hash o) "sha256") (dflt (yo_pss o) true) false in
  let m1 := set_header m (set_alg (m_header m) a) in
  let! data := protected_part L m1 in
  let! v := sign_data_with_alg_id L rnd2 k a data in
  let! v2 := (if yo_bad o then manipulate_bytes_based_on_key Y v k else Ok v) in
  Ok (set_prot m1 v2).
(** Models resources/protectionutils.py 2744-2763 (_patch_extra_certs). *)
Definition patch_extra_certs (Y : hyb) (m : msg) (o : yopts) : result msg :=
  match yo_cert o with
  | Some c =>
      if yo_exclude o then Ok m
      else match yo_dir o with
           | [] => Ok m
           | d => let! l := y_chain Y c d in Ok (set_certs m (m_certs m ++ l)%list)
           end
  | None => Ok m
  end.
(** Models resources/protectionutils.py 2844-2918 (protect_hybrid_pkimessage, catalyst) and 2679-2701
    (_prepare_catalyst_info_vals). [rnd2] is the randomness of the alternative signature, [rnd3] of the primary one. *)
Definition catalyst_protection (L : lib) (Y : hyb) (rnd rnd2 rnd3 : Z -> bytes) (k alt : key) (m : msg) (o : yopts) : result msg :=
  let! aa := prepare_sig_alg_id rnd (k_kind alt) (dflt (yo_hash o) "sha256") (dflt (yo_pss o) true) false in
  let! a := prepare_sig_alg_id rnd (k_kind k) (dflt (yo_hash o) "sha256") (dflt (yo_pss o) true) false in
  let! pub := (if yo_include o then let! b := y_enc_spki Y alt in Ok [{| i_type := alt_spki; i_val := PRaw b |}] else Ok []) in
  let h := set_alg (m_header m) a in
  let l := (h_info h ++ {| i_type := alt_alg; i_val := PRaw (l_enc L (PAlg aa)) |} :: pub)%list in
  let! data := protected_part L (set_header m (set_infos h l)) in
  let! s := sign_data_with_alg_id L rnd2 alt aa data in
  let! s2 := (if yo_bad o then manipulate_first_byte s else Ok s) in
  let m1 := set_header m (set_infos h (l ++ [{| i_type := alt_sig; i_val := PRaw (y_enc_bits Y s2) |}])%list) in
  let! data2 := protected_part L m1 in
  let! v := sign_data_with_alg_id L rnd3 k a data2 in
  Ok (set_prot m1 v).
(** Models resources/protectionutils.py 2767-2918 (protect_hybrid_pkimessage). A post-quantum key given as the
    alternative key is the first component (2860-2861). *)
Definition protect_hybrid (L : lib) (Y : hyb) (rnd rnd2 rnd3 : Z -> bytes) (m : msg) (k : option key) (protection : string)
    (alt : option key) (o : yopts) : result msg :=
  let m0 := set_header m (patch_sender_and_sender_kid (yo_patch o) (m_header m) (yo_cert o)) in
  match k with
  | None => Err EValueError
  | Some k =>
      let! _ := guard (str_mem protection ["signature"; "composite"; "catalyst"]) EValueError in
      let! m1 := patch_extra_certs Y m0 o in
      if String.eqb protection "signature" then sig_protection L Y rnd rnd2 k m1 o
      else if String.eqb protection "composite" then
        let! k' := match alt with
                   | None => Ok k
                   | Some x => match k_kind x with KPq _ => y_combine Y x k | _ => y_combine Y k x end
                   end in
        sig_protection L Y rnd rnd2 k' m1 o
      else match alt with
           | None => Err EValueError
           | Some x => catalyst_protection L Y rnd rnd2 rnd3 k x m1 o
           end
  end.

(** ** Verifying *)

Definition is_pq_kind (k : kkind) : bool := match k with KPq _ => true | _ => false end.
Definition is_mldsa_kind (k : kkind) : bool := match k with KPq n => str_mem n ML_DSA_NAMES | _ => false end.
Definition is_comp_trad_kind (k : kkind) : bool := match k with KEc | KEd25519 | KEd448 | KRsa => true | _ => false end.
(** Models resources/protectionutils.py 2960-2998 (verify_composite_signature_with_keys). *)
Definition verify_composite_with_keys (L : lib) (Y : hyb) (data sig : bytes) (a : algid) (k1 k2 : key) : result unit :=
  let first := if is_pq_kind (k_kind k1) then k1 else k2 in
  let second := if is_pq_kind (k_kind k1) then k2 else k1 in
  let! _ := guard (is_mldsa_kind (k_kind first)) EInvalidKeyCombination in
  let! _ := guard (is_comp_trad_kind (k_kind second)) EInvalidKeyCombination in
  let! k := (if has (a_oid a) COMPOSITE_SIG_OID_TO_NAME then y_combine Y first second else Err EBadAlg) in
  verify_signature_with_alg_id L k a data sig.
(** Models pq_logic/pq_verify_logic.py 156-220 (verify_composite_signature_with_hybrid_cert) and 106-153
    (_verify_signature_with_other_cert). *)
Definition verify_composite_hybrid_cert (L : lib) (Y : hyb) (data sig : bytes) (a : algid) (c : cert) (others : list cert)
  : result unit :=
  let! _ := guard (has (a_oid a) COMPOSITE_SIG_OID_TO_NAME) EValueError in
  match y_class Y c with
  | CTrad =>
      let! x := y_alt Y c others in
      match x with
      | None => Err EValueError
      | Some k1 => let! k2 := c_pub c in verify_composite_with_keys L Y data sig a k1 k2
      end
  | CPq => Err EValueError
  | CComp =>
      let! k := c_pub c in
      let! _ := guard (is_sign_kind (k_kind k)) EValueError in
      verify_signature_with_alg_id L k a data sig
  | COther => Err EUnknownOID
  end.
(** What _get_catalyst_info_vals has found so far: the algorithm, the key, the signature and the other entries. *)
Record found := { f_alg : option algid; f_key : option (result key); f_sig : option bytes; f_rest : list info }.
Definition decode_info {A} (dec : bytes -> option (A * bytes)) (i : info) : result A := load (fun _ => None) dec None (i_val i).
(** The loop of pq_logic/pq_verify_logic.py 469-484. *)
Fixpoint catalyst_scan (L : lib) (Y : hyb) (l : list info) (f : found) : result found :=
  match l with
  | [] => Ok f
  | i :: r =>
      if String.eqb (i_type i) alt_alg then
        let! a := decode_info (l_dec_alg L) i in
        catalyst_scan L Y r {| f_alg := Some a; f_key := f_key f; f_sig := f_sig f; f_rest := (f_rest f ++ [i])%list |}
      else if String.eqb (i_type i) alt_spki then
        let! k := decode_info (y_dec_spki Y) i in
        catalyst_scan L Y r {| f_alg := f_alg f; f_key := Some k; f_sig := f_sig f; f_rest := (f_rest f ++ [i])%list |}
      else if String.eqb (i_type i) alt_sig then
        let! s := decode_info (y_dec_bits Y) i in
        catalyst_scan L Y r {| f_alg := f_alg f; f_key := f_key f; f_sig := Some s; f_rest := f_rest f |}
      else
        catalyst_scan L Y r {| f_alg := f_alg f; f_key := f_key f; f_sig := f_sig f; f_rest := (f_rest f ++ [i])%list |}
  end.
(** Models pq_logic/pq_verify_logic.py 445-499 (_get_catalyst_info_vals). *)
Definition get_catalyst_info_vals (L : lib) (Y : hyb) (l : list info) (must : bool)
  : result (option (algid * option (result key) * bytes * list info)) :=
  let! f := catalyst_scan L Y l {| f_alg := None; f_key := None; f_sig := None; f_rest := [] |} in
  match f_alg f, f_sig f with
  | None, None => if must then Err EValueError else Ok None
  | _, None => Err EValueError
  | None, Some _ => Err EValueError
  | Some a, Some s => Ok (Some (a, f_key f, s, f_rest f))
  end.
(** Models pq_logic/pq_verify_logic.py 566-610 (verify_hybrid_pkimessage_protection for an algorithm that is not
    composite): the outcome and the message object afterwards. [len(pki_message) > 1] (569) always holds. An explicit tag
    of another format (463-467) encodes alike. *)
Definition verify_with_cert (L : lib) (Y : hyb) (m : msg) (a : algid) (v data : bytes) (must : bool) (c : cert)
    (others : list cert) : result unit * msg :=
  match (let! k := c_pub c in
         let! _ := guard (is_sign_kind (k_kind k)) EValueError in
         let! _ := verify_signature_with_alg_id L k a data v in
         get_catalyst_info_vals L Y (h_info (m_header m)) must) with
  | Err e => (Err e, m)
  | Ok None => (Ok tt, m)
  | Ok (Some (aa, ki, s, rest)) =>
      match (match ki with
             | Some r => let! k := r in Ok (Some k)
             | None => y_alt Y c others
             end) with
      | Err e => (Err e, m)
      | Ok ok =>
          let m2 := set_header m (set_infos (m_header m) rest) in
          (let! d2 := protected_part L m2 in
           match ok with
           | None => Err EValueError
           | Some k2 =>
               let! _ := guard (is_sign_kind (k_kind k2)) EValueError in
               match verify_signature_with_alg_id L k2 aa d2 s with
               | Err EInvalidSignature => Err EInvalidAltSignature
               | r => r
               end
           end, m2)
      end
  end.
(** Models pq_logic/pq_verify_logic.py 503-610 (verify_hybrid_pkimessage_protection): the outcome and the message object
    afterwards. [len(pki_message) > 1] (556) always holds. *)
Definition verify_hybrid (L : lib) (Y : hyb) (m : msg) (public : option key) (must : bool) : result unit * msg :=
  match h_alg (m_header m), m_prot m with
  | None, _ => (Err EBadMessageCheck, m)
  | _, None => (Err EBadMessageCheck, m)
  | Some a, Some v =>
      match m_certs m, public with
      | [], None => (Err EBadMessageCheck, m)
      | _, _ =>
          match protected_part L m with
          | Err e => (Err e, m)
          | Ok data =>
              if has (a_oid a) COMPOSITE_SIG_OID_TO_NAME then
                match public with
                | Some {| k_kind := KComp x y; k_id := n |} =>
                    (verify_signature_with_alg_id L {| k_kind := KComp x y; k_id := n |} a data v, m)
                | _ =>
                    match m_certs m with
                    | [] => (Err EIndexError, m)
                    | c :: others => (verify_composite_hybrid_cert L Y data v a c others, m)
                    end
                end
              else
                match m_certs m with
                | [] => (Err EIndexError, m)
                | c :: others =>
                    verify_with_cert L Y m a v data must c others
                end
          end
      end
  end.

(** ** Original messages *)

Definition orig_type : string := "id_it_origPKIMessage".
(** Models resources/cmputils.py 3934-3983 (find_oid_in_general_info, get_value_from_seq_of_info_value_field). *)
Fixpoint first_value (t : string) (l : list info) : option params :=
  match l with [] => None | i :: r => if String.eqb (i_type i) t then Some (i_val i) else first_value t r end.
(** The loop of resources/protectionutils.py 3055-3060. *)
Fixpoint verify_all (L : lib) (rnd : Z -> bytes) (pw : option sval) (l : list msg) : result unit :=
  match l with
  | [] => Ok tt
  | m :: r =>
      match verify_pkimessage_protection L rnd m
              {| v_key := None; v_password := pw; v_public := None; v_ss := None; v_lw := false |} with
      | Err EBadMessageCheck | Err EInvalidSignature | Err EInvalidAltSignature | Err EBadSigAlgID => Err EBadMessageCheck
      | Err e => Err e
      | Ok _ => verify_all L rnd pw r
      end
  end.
(** Models resources/protectionutils.py 3002-3060 (validate_orig_pkimessage). [dec] decodes PKIMessages; a failure of it
    is BadAsn1Data (resources/asn1utils.py 764-769); a value that is not set has no octets. *)
Definition validate_orig (L : lib) (rnd : Z -> bytes) (dec : bytes -> option (list msg * bytes)) (m : msg) (must : bool)
    (pw : option sval) : result unit :=
  match first_value orig_type (h_info (m_header m)) with
  | None => if must then Err EBadRequest else Ok tt
  | Some p =>
      match p with
      | PRaw b | POctets b =>
          match dec b with
          | None => Err EBadAsn1Data
          | Some (_, _ :: _) => Err EBadMessageCheck
          | Some (l, []) => verify_all L rnd pw l
          end
      | _ => Err EPyAsn1
      end
  end.
