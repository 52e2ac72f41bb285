(** Model of Sun hybrid certificates: an alternative key and an alternative signature in extensions, by value or by reference
    (pq_logic/hybrid_sig/sun_lamps_hybrid_scheme_00.py 52-77, 189-1217, pq_logic/pq_verify_logic.py 231-266, 339-442,
    706-799, resources/utils.py 945-960).

    Simplified: as in CatModel.v, whose structures are used. What is at a location is a function of the location: it does not
    change during a call. Copying a certificate through DER is the identity. *)
From Coq Require Import String Ascii.
From Verif Require Import Prelude PyStr ProtTab HdrModel CatModel.
Open Scope string_scope.
Open Scope Z_scope.
Open Scope list_scope.
Local Notation oid := ProtTab.oid.

(** ** Structures *)

(** pq_logic/hybrid_structures.py 21-60 (AltSubPubKeyExt, AltSignatureExt: the same fields). *)
Record alt := { a_by : bool; a_val : bytes; a_alg : alg; a_hash : option alg; a_loc : option string }.
Definition KEY_EXT : oid := "id_altSubPubKeyExt".
Definition SIG_EXT : oid := "id_altSignatureExt".

(** What is called, besides the library of CatModel.v: DER of an extension, [public_bytes] of a key as a
    SubjectPublicKeyInfo, [requests.get], the hash functions, the two keys of a hybrid key (traditional, post-quantum) and
    its object identifier, the class of composite signature keys, the text of an encoded string, prepare_extensions, and what may_extract_alt_key_from_cert calls: ensure_is_pq_verify_key, the
    related certificate in a list, the descriptor in a subjectInfoAccess extension, the certificate it refers to, the delta
    key. *)
Record lib := {
  l_cat : CatModel.lib;
  l_altenc : alt -> bytes;
  l_altdec : bytes -> option (alt * bytes);
  l_der : pub -> bytes;
  l_get : string -> result bytes;
  l_hash : string -> bytes -> bytes;
  l_parts : pub -> option (pub * pub);
  l_oid : pub -> oid;
  l_composite : pub -> bool;
  l_text : bytes -> result string;
  l_extensions : pub -> result (list ext);
  l_pqverify : pub -> bool;
  l_related : list cert -> cert -> result cert;
  l_descriptor : ext -> result bytes;
  l_discover : bytes -> result cert;
  l_delta : cert -> result spki
}.

(** Models sun_lamps_hybrid_scheme_00.py 52-62 (_compute_hash). *)
Definition compute_hash (L : lib) (h : string) (d : bytes) : result bytes :=
  let! n := hash_name_to_instance h in Ok (l_hash L n d).
(** Models resources/utils.py 945-960 (fetch_value_from_location). *)
Definition fetch (L : lib) (loc : string) : result (option bytes) :=
  if String.eqb loc "" then Ok None else let! b := l_get L loc in Ok (Some b).
(** Models sun_lamps_hybrid_scheme_00.py 1157-1169 (process_public_key). *)
Definition process_key (L : lib) (d : option bytes) : result pub :=
  match d with
  | None => Err EValueError
  | Some b =>
      match l_spkidec (l_cat L) b with
      | None => Err EPyAsn1
      | Some (s, rest) =>
          let! _ := guard (match rest with [] => true | _ => false end) EValueError in
          l_load (l_cat L) s
      end
  end.

(** ** Extensions *)

(** A hash name that counts: not absent, not empty. *)
Definition named (h : option string) : option string :=
  match h with Some n => if String.eqb n "" then None else Some n | None => None end.
(** Models sun_lamps_hybrid_scheme_00.py 189-254 (prepare_sun_hybrid_alt_sub_pub_key_ext). *)
Definition key_ext (L : lib) (k : pub) (by_val : bool) (h : option string) (loc : option string) (crit : bool) : result ext :=
  match l_spkidec (l_cat L) (l_der L k) with
  | None => Err EPyAsn1
  | Some (s, _) =>
      let! v := (if by_val then Ok (l_der L k)
                 else match named h with None => Err EValueError | Some n => compute_hash L n (l_der L k) end) in
      let! ha := match named h with
                 | None => Ok None
                 | Some n => let! o := sha_alg_name_to_oid n in Ok (Some {| g_oid := o; g_par := None |})
                 end in
      Ok {| x_id := KEY_EXT; x_crit := crit;
            x_val := l_altenc L {| a_by := by_val; a_val := v; a_alg := k_alg s; a_hash := ha; a_loc := loc |} |}
  end.
(** Models sun_lamps_hybrid_scheme_00.py 257-325 (prepare_sun_hybrid_alt_signature_ext). The parameters of the hash
    algorithm are NULL. *)
Definition sig_ext (L : lib) (s : bytes) (by_val : bool) (a : alg) (h : option string) (loc : option string) (crit : bool)
  : result ext :=
  let! _ := guard (match s with [] => false | _ => true end) EValueError in
  let! v := (if by_val then Ok s
             else match named h with None => Err EValueError | Some n => compute_hash L n s end) in
  let! ha := match h with
             | None => Ok None
             | Some _ =>
                 match named h with
                 | None => Err EValueError
                 | Some n => let! o := sha_alg_name_to_oid n in Ok (Some {| g_oid := o; g_par := Some [5; 0] |})
                 end
             end in
  Ok {| x_id := SIG_EXT; x_crit := crit;
        x_val := l_altenc L {| a_by := by_val; a_val := v; a_alg := a; a_hash := ha; a_loc := loc |} |}.
(** Models resources/certextractutils.py 118-143 (get_extension) with [must_be_non_crit=True]. *)
Definition get_non_critical (l : list ext) (o : oid) : result (option ext) :=
  match get_extension l o with
  | None => Ok None
  | Some e => let! _ := guard (negb (x_crit e)) EValueError in Ok (Some e)
  end.
(** A decoding whose remainder is dropped and whose error is not translated. *)
Definition dec (L : lib) (b : bytes) : result alt := match l_altdec L b with Some (a, _) => Ok a | None => Err EPyAsn1 end.
(** [get_hash_from_oid(decoded_ext["hashAlg"]["algorithm"])]: an object identifier without a value cannot be hashed. *)
Definition hash_of (a : alt) : result (option string) :=
  match a_hash a with None => Err EPyAsn1 | Some x => get_hash_from_oid (g_oid x) false end.
(** Models sun_lamps_hybrid_scheme_00.py 835-848 (_patch_extensions). *)
Fixpoint patch (l : list ext) (e : ext) : result (list ext) :=
  match l with
  | [] => Err EValueError
  | x :: r => if String.eqb (x_id x) (x_id e) then Ok (e :: r) else let! r' := patch r e in Ok (x :: r')
  end.
Definition patch_cert (c : cert) (e : ext) : result cert :=
  let! l := patch (exts_of (t_exts (c_tbs c))) e in Ok (set_tbs c (set_texts (c_tbs c) (Some l))).

(** ** Forms *)

(** Models sun_lamps_hybrid_scheme_00.py 851-895 (_parse_alt_sig_extension). *)
Definition convert_sig (L : lib) (c : cert) (to_val : bool) : result cert :=
  let! o := get_non_critical (exts_of (t_exts (c_tbs c))) SIG_EXT in
  match o with
  | None => Err EValueError
  | Some e =>
      let! a := dec L (x_val e) in
      if Bool.eqb to_val (a_by a) then Ok c
      else
        let! h := hash_of a in
        let! s := (if to_val then
                     match named (a_loc a) with
                     | None => Err EValueError
                     | Some loc =>
                         let! f := fetch L loc in
                         match f with Some (b :: r) => Ok (b :: r) | _ => Err EValueError end
                     end
                   else Ok (a_val a)) in
        let! e' := sig_ext L s to_val (a_alg a) h (a_loc a) (x_crit e) in
        patch_cert c e'
  end.
(** Models sun_lamps_hybrid_scheme_00.py 898-946 (_parse_alt_sub_pub_key_extension). *)
Definition convert_key (L : lib) (c : cert) (to_val : bool) : result cert :=
  let! o := get_non_critical (exts_of (t_exts (c_tbs c))) KEY_EXT in
  match o with
  | None => Err EValueError
  | Some e =>
      let! a := dec L (x_val e) in
      if Bool.eqb to_val (a_by a) then Ok c
      else
        let! h := hash_of a in
        let! k := (if to_val then
                     match a_loc a with
                     | None => Err EValueError
                     | Some loc => let! f := fetch L loc in process_key L f
                     end
                   else match named (a_loc a) with
                        | None => Err EValueError
                        | Some _ => process_key L (Some (a_val a))
                        end) in
        let! e' := key_ext L k to_val h (a_loc a) (x_crit e) in
        patch_cert c e'
  end.
(** The table of sun_lamps_hybrid_scheme_00.py 1137-1142. *)
Definition form_map : list (string * (bool * bool)) :=
  [("Form1", (true, true)); ("Form2", (true, false)); ("Form3", (false, true)); ("Form4", (false, false))].
Definition form_of (f : string) : option (bool * bool) :=
  match find (fun p => String.eqb (fst p) f) form_map with Some p => Some (snd p) | None => None end.
(** Models sun_lamps_hybrid_scheme_00.py 1102-1153 (convert_sun_hybrid_cert_to_target_form). *)
Definition convert (L : lib) (c : cert) (f : string) : result cert :=
  match form_of f with
  | None => Err EValueError
  | Some (k, s) => let! c1 := convert_key L c k in convert_sig L c1 s
  end.
(** The loop of sun_lamps_hybrid_scheme_00.py 976-980: every extension of the two types is decoded, the last of each kept. *)
Fixpoint last_alts (L : lib) (l : list ext) (k s : option alt) : result (option alt * option alt) :=
  match l with
  | [] => Ok (k, s)
  | e :: r =>
      if String.eqb (x_id e) KEY_EXT then let! a := dec L (x_val e) in last_alts L r (Some a) s
      else if String.eqb (x_id e) SIG_EXT then let! a := dec L (x_val e) in last_alts L r k (Some a)
      else last_alts L r k s
  end.
(** Models sun_lamps_hybrid_scheme_00.py 949-994 (get_sun_hybrid_form). *)
Definition get_form (L : lib) (c : cert) : result string :=
  let! p := last_alts L (exts_of (t_exts (c_tbs c))) None None in
  match p with
  | (Some k, Some s) =>
      Ok (if a_by k then if a_by s then "Form1" else "Form2" else if a_by s then "Form3" else "Form4")
  | _ => Err EValueError
  end.
(** Models sun_lamps_hybrid_scheme_00.py 997-1010 (_check_form_1_or_3). *)
Fixpoint by_value_sig (L : lib) (l : list ext) : result bool :=
  match l with
  | [] => Ok false
  | e :: r =>
      if String.eqb (x_id e) SIG_EXT then
        let! a := dec L (x_val e) in
        if a_by a then Ok true else by_value_sig L r
      else by_value_sig L r
  end.
Fixpoint find_form (L : lib) (cs : list cert) : result (option cert) :=
  match cs with
  | [] => Ok None
  | c :: r => let! b := by_value_sig L (exts_of (t_exts (c_tbs c))) in if b then Ok (Some c) else find_form L r
  end.
(** Two encodings of certificates are the same. *)
Definition opt_eqb {A} (f : A -> A -> bool) (a b : option A) : bool :=
  match a, b with None, None => true | Some x, Some y => f x y | _, _ => false end.
Definition alg_eqb (a b : alg) : bool := String.eqb (g_oid a) (g_oid b) && opt_eqb bytes_eqb (g_par a) (g_par b).
Definition ext_eqb (a b : ext) : bool :=
  String.eqb (x_id a) (x_id b) && Bool.eqb (x_crit a) (x_crit b) && bytes_eqb (x_val a) (x_val b).
Fixpoint list_eqb {A} (f : A -> A -> bool) (a b : list A) : bool :=
  match a, b with [], [] => true | x :: a, y :: b => f x y && list_eqb f a b | _, _ => false end.
Definition cert_eqb (a b : cert) : bool :=
  bytes_eqb (t_rest (c_tbs a)) (t_rest (c_tbs b)) && opt_eqb alg_eqb (t_alg (c_tbs a)) (t_alg (c_tbs b))
  && alg_eqb (k_alg (t_spki (c_tbs a))) (k_alg (t_spki (c_tbs b))) && bytes_eqb (k_bits (t_spki (c_tbs a))) (k_bits (t_spki (c_tbs b)))
  && opt_eqb (list_eqb ext_eqb) (t_exts (c_tbs a)) (t_exts (c_tbs b)) && opt_eqb alg_eqb (c_alg a) (c_alg b)
  && bytes_eqb (c_sig a) (c_sig b).
(** Models sun_lamps_hybrid_scheme_00.py 1060-1099 (contains_sun_hybrid_cert_form_1_or_3). *)
Definition contains_form (L : lib) (c4 : cert) (cs : list cert) : result cert :=
  let! o := find_form L cs in
  match o with
  | None => Err EValueError
  | Some c => let! x := convert L c "Form4" in let! _ := guard (cert_eqb c4 x) EValueError in Ok c
  end.
(** Models sun_lamps_hybrid_scheme_00.py 1013-1057 (validate_cert_contains_sun_hybrid_extensions). *)
Definition contains_one (L : lib) (l : list ext) (o : oid) : result unit :=
  let! x := get_non_critical l o in
  match x with
  | None => Err EValueError
  | Some e => match l_altdec L (x_val e) with
              | Some (_, []) => Ok tt
              | _ => Err EBadAsn1Data
              end
  end.
Definition contains_extensions (L : lib) (c : cert) : result unit :=
  let l := exts_of (t_exts (c_tbs c)) in
  let! _ := contains_one L l KEY_EXT in contains_one L l SIG_EXT.

(** ** Verifying *)

(** pyasn1's comparison of two AlgorithmIdentifiers: absent parameters cannot be compared with present ones. *)
Definition alg_cmp (a b : alg) : result bool :=
  if String.eqb (g_oid a) (g_oid b) then
    match g_par a, g_par b with
    | None, None => Ok true
    | Some x, Some y => Ok (bytes_eqb x y)
    | _, _ => Err EPyAsn1
    end
  else Ok false.
(** Models sun_lamps_hybrid_scheme_00.py 672-743 (validate_alt_pub_key_extn). *)
Definition validate_key (L : lib) (c : cert) : result pub :=
  match get_extension (exts_of (t_exts (c_tbs c))) KEY_EXT with
  | None => Err EValueError
  | Some e =>
      let! a := dec L (x_val e) in
      let! _ := guard (negb (x_crit e)) EValueError in
      let! _ := guard (negb (a_by a)) EValueError in
      match a_loc a with
      | None => Err EValueError
      | Some loc =>
          let! f := fetch L loc in
          let! k := process_key L f in
          let! h := hash_of a in
          match named h with
          | None => Err EValueError
          | Some n =>
              let! d := compute_hash L n (l_der L k) in
              let! _ := guard (bytes_eqb d (a_val a)) EValueError in
              match (match f with Some b => l_spkidec (l_cat L) b | None => None end) with
              | None => Err EPyAsn1
              | Some (s, _) =>
                  let! same := alg_cmp (k_alg s) (a_alg a) in
                  let! _ := guard same EValueError in
                  l_load (l_cat L) s
              end
          end
      end
  end.
(** The loop of sun_lamps_hybrid_scheme_00.py 799-810: the last AltSignatureExt, and the other extensions. *)
Fixpoint split_sig (L : lib) (l : list ext) (a : option alt) (new : list ext) : result (option alt * list ext) :=
  match l with
  | [] => Ok (a, new)
  | e :: r =>
      if String.eqb (x_id e) SIG_EXT then
        let! x := dec L (x_val e) in
        let! _ := guard (negb (x_crit e)) EValueError in
        split_sig L r (Some x) new
      else split_sig L r a (new ++ [e])
  end.
Definition some_exts (l : list ext) : option (list ext) := match l with [] => None | _ => Some l end.
(** Models sun_lamps_hybrid_scheme_00.py 766-832 (validate_alt_sig_extn); the second component is the certificate as the
    function leaves it. *)
Definition validate_sig (L : lib) (c : cert) (k : pub) (given : option bytes) : result unit * cert :=
  match split_sig L (exts_of (t_exts (c_tbs c))) None [] with
  | Err e => (Err e, c)
  | Ok (None, _) => (Err EValueError, c)
  | Ok (Some a, new) =>
      let c' := set_tbs c (set_texts (c_tbs c) (some_exts new)) in
      (let! s := match given with
                 | Some s => Ok (Some s)
                 | None => match a_loc a with Some loc => fetch L loc | None => Ok None end
                 end in
       let! h := hash_of a in
       match named h with
       | None => Err EValueError
       | Some n =>
           match s with
           | None => Err EValueError
           | Some s =>
               let! d := compute_hash L n s in
               let! _ := guard (bytes_eqb (a_val a) d) EValueError in
               l_verify_alg (l_cat L) k (a_alg a) (l_tbsenc (l_cat L) (c_tbs c')) s
           end
       end, c')
  end.
(** Models pq_logic/pq_verify_logic.py 384-396 (_verify_sun_hybrid_trad_sig). *)
Definition verify_trad (L : lib) (c issuer : cert) : result unit :=
  let! c4 := convert L c "Form4" in
  let! k := l_load (l_cat L) (t_spki (c_tbs issuer)) in
  let! k' := ensure_verify (l_cat L) k in
  match t_alg (c_tbs c4) with
  | None => Err EPyAsn1
  | Some a => l_verify_alg (l_cat L) k' a (l_tbsenc (l_cat L) (c_tbs c4)) (c_sig c4)
  end.
(** Models sun_lamps_hybrid_scheme_00.py 1172-1217 (get_sun_hybrid_alt_pub_key). *)
Definition alt_pub_key (L : lib) (l : list ext) : result (option pub) :=
  match get_extension l KEY_EXT with
  | None => Ok None
  | Some e =>
      let! a := dec L (x_val e) in
      if a_by a then
        match l_spkidec (l_cat L) (a_val a) with
        | Some (s, []) => let! k := l_load (l_cat L) s in Ok (Some k)
        | _ => Err EBadAsn1Data
        end
      else
        match a_loc a with
        | None => Err EValueError
        | Some loc =>
            let! f := fetch L loc in
            match (match f with Some b => l_spkidec (l_cat L) b | None => None end) with
            | None => Err EPyAsn1
            | Some (s, rest) =>
                let! _ := guard (match rest with [] => true | _ => false end) EValueError in
                let! k := l_load (l_cat L) s in Ok (Some k)
            end
        end
  end.
(** Models pq_logic/pq_verify_logic.py 706-799 (may_extract_alt_key_from_cert). *)
Definition RELATED : oid := "id_relatedCert".
Definition SIA : oid := "id_pe_subjectInfoAccess".
Definition DELTA : oid := "id_ce_deltaCertificateDescriptor".
Definition extract_alt_key (L : lib) (c : cert) (others : option (list cert)) : result (option pub) :=
  let l := exts_of (t_exts (c_tbs c)) in
  let some (r : result pub) : result (option pub) := let! k := r in Ok (Some k) in
  let! d := match get_extension l SIA with
            | None => Ok None
            | Some e => match l_descriptor L e with
                        | Ok d => Ok (Some d)
                        | Err EValueError => Ok None
                        | Err x => Err x
                        end
            end in
  match get_extension l KEY_EXT with
  | Some _ => let! k := alt_pub_key L l in match k with Some k => Ok (Some k) | None => Err EValueError end
  | None =>
      match get_extension l RELATED, others with
      | Some _, Some cs => let! x := l_related L cs c in some (l_load (l_cat L) (t_spki (c_tbs x)))
      | _, _ =>
          match get_extension l ALT_SPKI with
          | Some e => let! k := load_catalyst_key (l_cat L) [e] in let! _ := guard (l_pqverify L k) EValueError in Ok (Some k)
          | None =>
              match d with
              | Some d => let! x := l_discover L d in some (l_load (l_cat L) (t_spki (c_tbs x)))
              | None =>
                  match get_extension l DELTA with
                  | Some _ => let! s := l_delta L c in some (l_load (l_cat L) s)
                  | None =>
                      if has (g_oid (k_alg (t_spki (c_tbs c)))) COMPOSITE_SIG_OID_TO_NAME then
                        let! k := l_load (l_cat L) (t_spki (c_tbs c)) in
                        match l_parts L k with Some (_, q) => Ok (Some q) | None => Err EAttribute end
                      else Ok None
                  end
              end
          end
      end
  end.
(** Models pq_logic/pq_verify_logic.py 399-442 (verify_sun_hybrid_cert). *)
Definition verify_sun (L : lib) (c issuer : cert) (alt_key : option pub) (check_sig : bool) (others : option (list cert))
  : result unit :=
  let! c4 := convert L c "Form4" in
  let! _ := verify_trad L c issuer in
  let! k := match alt_key with
            | Some k => Ok k
            | None => let! o := extract_alt_key L issuer others in match o with Some k => Ok k | None => Err EValueError end
            end in
  let! _ := validate_key L c4 in
  if check_sig then fst (validate_sig L c4 k None) else Ok tt.

(** ** Issuing *)

(** Models sun_lamps_hybrid_scheme_00.py 555-572 (_prepare_public_key_extensions). *)
Definition key_exts (L : lib) (k : pub) (h : option string) (loc : option string) : result (ext * ext) :=
  let! e4 := key_ext L k false h loc false in
  let! e1 := key_ext L k true h loc false in
  Ok (e4, e1).
(** Both signatures, from a TBSCertificate with the key extension (sun_lamps_hybrid_scheme_00.py 508-552 and 636-670): the
    hash of the alternative signature, and that of the signature. *)
Definition sign_sun (L : lib) (t : tbs) (ca altk : skey) (sh : option string) (h : string) (loc : option string) (bad : bool)
  : result (cert * ext) :=
  let! s := l_sign (l_cat L) altk (l_tbsenc (l_cat L) t) sh false in
  let! a := l_sigalg (l_cat L) altk sh false in
  let! s' := (if bad then manipulate_first_byte s else Ok s) in
  let! e4 := sig_ext L s' false a sh loc false in
  let! e1 := sig_ext L s' true a sh loc false in
  let t' := set_texts t (add_ext (t_exts t) e4) in
  let! ts := l_sign (l_cat L) ca (l_tbsenc (l_cat L) t') (Some h) false in
  let! ta := l_sigalg (l_cat L) ca (Some h) false in
  Ok ({| c_tbs := t'; c_alg := Some ta; c_sig := ts |}, e1).
(** Models sun_lamps_hybrid_scheme_00.py 437-552 (sun_cert_template_to_cert). [rest] is what
    prepare_tbs_certificate_from_template makes of the names, the validity and the serial number; it writes the signature
    algorithm with its own default hash, "sha256" (resources/certbuildutils.py 1802, 1834-1838). *)
Definition issue_template (L : lib) (s : spki) (rest : bytes) (ca altk : skey) (kloc sloc : option string)
  (h : option string) (exts : option (list ext)) (bad : bool) : result (cert * cert) :=
  let! k := l_load (l_cat L) s in
  match l_parts L k with
  | None => Err EValueError
  | Some (trad, q) =>
      let! ts := l_spki (l_cat L) trad in
      let! a := l_sigalg (l_cat L) ca (Some "sha256") false in
      let! tk := l_load (l_cat L) ts in
      let! xs := l_extensions L tk in
      let n := match named h with
               | Some n => n
               | None => match lookup (l_oid L k) COMPOSITE_SIG_PREHASH_OID_2_HASH with Some n => n | None => "sha256" end
               end in
      let! (e4, e1) := key_exts L q (Some n) kloc in
      let t := {| t_rest := rest; t_alg := Some a; t_spki := ts; t_exts := Some (xs ++ exts_of exts ++ [e4]) |} in
      let! (c4, s1) := sign_sun L t ca altk (Some n) n sloc bad in
      let! c1 := patch_cert c4 e1 in
      let! c1' := patch_cert c1 s1 in
      Ok (c4, c1')
  end.
(** Models sun_lamps_hybrid_scheme_00.py 328-356 (_extract_sun_hybrid_attrs_from_csr): the last attribute of each type; an
    attribute is its type and its first value. *)
Record asked := { q_key_hash : option alg; q_key_loc : option string; q_sig_hash : option alg; q_sig_loc : option string }.
Fixpoint attributes (L : lib) (l : list (oid * bytes)) (q : asked) : result asked :=
  match l with
  | [] => Ok q
  | (o, v) :: r =>
      if String.eqb o "id_altSubPubKeyHashAlgAttr" then
        match l_algdec (l_cat L) v with
        | None => Err EPyAsn1
        | Some (a, _) => attributes L r {| q_key_hash := Some a; q_key_loc := q_key_loc q; q_sig_hash := q_sig_hash q; q_sig_loc := q_sig_loc q |}
        end
      else if String.eqb o "id_altSigValueHashAlgAttr" then
        match l_algdec (l_cat L) v with
        | None => Err EPyAsn1
        | Some (a, _) => attributes L r {| q_key_hash := q_key_hash q; q_key_loc := q_key_loc q; q_sig_hash := Some a; q_sig_loc := q_sig_loc q |}
        end
      else if String.eqb o "id_altSubPubKeyLocAttr" then
        let! x := l_text L v in
        attributes L r {| q_key_hash := q_key_hash q; q_key_loc := Some x; q_sig_hash := q_sig_hash q; q_sig_loc := q_sig_loc q |}
      else if String.eqb o "id_altSigValueLocAttr" then
        let! x := l_text L v in
        attributes L r {| q_key_hash := q_key_hash q; q_key_loc := q_key_loc q; q_sig_hash := q_sig_hash q; q_sig_loc := Some x |}
      else attributes L r q
  end.
(** Models sun_lamps_hybrid_scheme_00.py 359-434 (sun_csr_to_cert) with 575-670 (prepare_sun_hybrid_pre_tbs_certificate):
    without an attribute, the "name" of the hash of the key is an object identifier (line 402). *)
Definition issue_csr (L : lib) (s : spki) (so : oid) (attrs : list (oid * bytes)) (rest : bytes) (ca altk : skey) (h : string)
  (exts : option (list ext)) : result (cert * cert) :=
  let! k := l_load (l_cat L) s in
  let! _ := guard (l_composite L k) EValueError in
  let! q := attributes L attrs {| q_key_hash := None; q_key_loc := None; q_sig_hash := None; q_sig_loc := None |} in
  let! kh := match q_key_hash q with
             | None => match rlookup h SHA2_OID_2_NAME with Some o => Ok (Some o) | None => Err EKeyError end
             | Some a => get_hash_from_oid (g_oid a) false
             end in
  let! sh := match q_sig_hash q with
             | None => Ok (match named (lookup so COMPOSITE_SIG_PREHASH_OID_2_HASH) with Some n => Some n | None => Some h end)
             | Some a => get_hash_from_oid (g_oid a) false
             end in
  match l_parts L k with
  | None => Err EAttribute
  | Some (trad, pq) =>
      let! (e4, e1) := key_exts L pq kh (q_key_loc q) in
      let! ts := l_spki (l_cat L) trad in
      let! a := l_sigalg (l_cat L) ca (Some h) false in
      let t := {| t_rest := rest; t_alg := Some a; t_spki := ts; t_exts := Some (e4 :: exts_of exts) |} in
      let! (c4, s1) := sign_sun L t ca altk sh h (q_sig_loc q) false in
      let! c1 := patch_cert c4 s1 in
      let! c1' := patch_cert c1 e1 in
      Ok (c4, c1')
  end.
