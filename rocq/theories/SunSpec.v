(** Vocabulary of the properties of Sun hybrid certificates. *)
From Coq Require Import String.
From Verif Require Import Prelude ProtTab HdrModel CatModel CatSpec SunModel.
Open Scope string_scope.
Open Scope Z_scope.
Open Scope list_scope.
Local Notation oid := ProtTab.oid.

(** ** Certificates and extensions *)

Definition exts (c : cert) : list ext := exts_of (t_exts (c_tbs c)).
(** The first extension of a type is not critical and has the value. *)
Definition first_alt (L : lib) (c : cert) (o : oid) (a : alt) : Prop :=
  exists e r, first_is (exts c) o e /\ x_crit e = false /\ l_altdec L (x_val e) = Some (a, r).
(** The certificate with another first extension of a type, not critical and with the value; everything else is the same. *)
Definition with_alt (L : lib) (c : cert) (o : oid) (a : alt) (c' : cert) : Prop :=
  exists x e y, exts c = x ++ e :: y /\ x_id e = o /\ ~ occurs o x
    /\ t_exts (c_tbs c') = Some (x ++ {| x_id := o; x_crit := false; x_val := l_altenc L a |} :: y)
    /\ t_rest (c_tbs c') = t_rest (c_tbs c) /\ t_alg (c_tbs c') = t_alg (c_tbs c) /\ t_spki (c_tbs c') = t_spki (c_tbs c)
    /\ c_alg c' = c_alg c /\ c_sig c' = c_sig c.
(** A name of a hash function, or none; an empty name is none. *)
Definition no_name (h : option string) : Prop := h = None \/ h = Some "".
Definition digest (L : lib) (h : option string) (d v : bytes) : Prop :=
  exists n m, h = Some n /\ n <> "" /\ hash_name_to_instance n = Ok m /\ v = l_hash L m d.
(** The hash function of an extension: its identifier must be there. *)
Definition hash_in (a : alt) (h : option string) : Prop := exists x, a_hash a = Some x /\ get_hash_from_oid (g_oid x) false = Ok h.
(** A key that is encoded, without trailing data; what is at a location. *)
Definition key_from (L : lib) (b : bytes) (k : pub) : Prop :=
  exists s, l_spkidec (l_cat L) b = Some (s, []) /\ l_load (l_cat L) s = Ok k.
Definition at_loc (L : lib) (loc : option string) (b : bytes) : Prop := exists x, loc = Some x /\ x <> "" /\ l_get L x = Ok b.
(** The value of the extension for a key and for a signature. *)
Definition key_value (L : lib) (k : pub) (by_val : bool) (h loc : option string) (a : alt) : Prop :=
  a_by a = by_val /\ (exists s r, l_spkidec (l_cat L) (l_der L k) = Some (s, r) /\ a_alg a = k_alg s)
  /\ (if by_val then a_val a = l_der L k else digest L h (l_der L k) (a_val a))
  /\ ((no_name h /\ a_hash a = None)
      \/ exists n o, h = Some n /\ n <> "" /\ sha_alg_name_to_oid n = Ok o /\ a_hash a = Some {| g_oid := o; g_par := None |})
  /\ a_loc a = loc.
Definition sig_value (L : lib) (s : bytes) (g : alg) (by_val : bool) (h loc : option string) (a : alt) : Prop :=
  s <> [] /\ a_by a = by_val /\ a_alg a = g /\ (if by_val then a_val a = s else digest L h s (a_val a))
  /\ ((h = None /\ a_hash a = None)
      \/ exists n o, h = Some n /\ n <> "" /\ sha_alg_name_to_oid n = Ok o /\ a_hash a = Some {| g_oid := o; g_par := Some [5; 0] |})
  /\ a_loc a = loc.

(** ** Forms *)

(** The extension for the key is converted: nothing is to be done, or the key is taken from the location (to a value) or from
    the extension (to a reference, with a location). *)
Definition key_converted (L : lib) (to_val : bool) (c c' : cert) : Prop :=
  exists a, first_alt L c KEY_EXT a /\
  ((a_by a = to_val /\ c' = c) \/
   (a_by a = negb to_val /\ exists h b k a', hash_in a h /\ key_from L b k
      /\ (if to_val then at_loc L (a_loc a) b else ~ no_name (a_loc a) /\ b = a_val a)
      /\ key_value L k to_val h (a_loc a) a' /\ with_alt L c KEY_EXT a' c')).
Definition sig_converted (L : lib) (to_val : bool) (c c' : cert) : Prop :=
  exists a, first_alt L c SIG_EXT a /\
  ((a_by a = to_val /\ c' = c) \/
   (a_by a = negb to_val /\ exists h s a', hash_in a h
      /\ (if to_val then at_loc L (a_loc a) s else s = a_val a)
      /\ sig_value L s (a_alg a) to_val h (a_loc a) a' /\ with_alt L c SIG_EXT a' c')).
(** The four forms: the key and the signature by value or by reference. *)
Definition form (f : string) (k s : bool) : Prop :=
  (f = "Form1" /\ k = true /\ s = true) \/ (f = "Form2" /\ k = true /\ s = false)
  \/ (f = "Form3" /\ k = false /\ s = true) \/ (f = "Form4" /\ k = false /\ s = false).
(** Every extension of the type is decoded; the last has the value. *)
Definition all_decoded (L : lib) (l : list ext) (o : oid) : Prop :=
  forall e, In e l -> x_id e = o -> exists a r, l_altdec L (x_val e) = Some (a, r).
Definition last_alt (L : lib) (l : list ext) (o : oid) (a : alt) : Prop :=
  exists e r, last_is l o e /\ l_altdec L (x_val e) = Some (a, r).
Definition once (o : oid) (l : list ext) : Prop := exists x e y, l = x ++ e :: y /\ x_id e = o /\ ~ occurs o x /\ ~ occurs o y.

(** ** Laws *)

(** Decoding undoes encoding; a key is loaded from its own encoding. *)
Definition sun_laws (L : lib) : Prop := forall a, l_altdec L (l_altenc L a) = Some (a, []).
Definition own_encoding (L : lib) (k : pub) : Prop := key_from L (l_der L k) k.
(** A name of a hash function that is found again by its identifier. *)
Definition good_name (n : string) : Prop :=
  n <> "" /\ exists m o, hash_name_to_instance n = Ok m /\ sha_alg_name_to_oid n = Ok o /\ get_hash_from_oid o false = Ok (Some n).

(** The first extensions of both types are those made for a key and a signature, by value or by reference. *)
Definition carries (L : lib) (c : cert) (k : pub) (kn : string) (kloc : string) (kv : bool)
  (s : bytes) (g : alg) (sn : string) (sloc : string) (sv : bool) : Prop :=
  t_exts (c_tbs c) <> None
  /\ (exists a, key_value L k kv (Some kn) (Some kloc) a /\ first_is (exts c) KEY_EXT {| x_id := KEY_EXT; x_crit := false; x_val := l_altenc L a |})
  /\ (exists a, sig_value L s g sv (Some sn) (Some sloc) a /\ first_is (exts c) SIG_EXT {| x_id := SIG_EXT; x_crit := false; x_val := l_altenc L a |}).
(** The key and the signature are at the locations. *)
Definition served (L : lib) (k : pub) (kloc : string) (s : bytes) (sloc : string) : Prop :=
  kloc <> "" /\ l_get L kloc = Ok (l_der L k) /\ sloc <> "" /\ l_get L sloc = Ok s.
(** The certificates differ in the extensions of the two types only. *)
Definition same_but_alts (c c' : cert) : Prop :=
  t_rest (c_tbs c') = t_rest (c_tbs c) /\ t_alg (c_tbs c') = t_alg (c_tbs c) /\ t_spki (c_tbs c') = t_spki (c_tbs c)
  /\ c_alg c' = c_alg c /\ c_sig c' = c_sig c
  /\ map x_id (exts c') = map x_id (exts c) /\ without SIG_EXT (without KEY_EXT (exts c')) = without SIG_EXT (without KEY_EXT (exts c)).
(** A certificate whose signature extension is by value, after references only; one with references only. *)
Definition sig_by_value (L : lib) (c : cert) : Prop :=
  exists x e y a r, exts c = x ++ e :: y /\ x_id e = SIG_EXT /\ l_altdec L (x_val e) = Some (a, r) /\ a_by a = true
    /\ (forall e', In e' x -> x_id e' = SIG_EXT -> exists a' r', l_altdec L (x_val e') = Some (a', r') /\ a_by a' = false).
Definition sig_by_reference (L : lib) (c : cert) : Prop :=
  forall e, In e (exts c) -> x_id e = SIG_EXT -> exists a r, l_altdec L (x_val e) = Some (a, r) /\ a_by a = false.

(** ** Verifying *)

(** The key extension of a certificate refers to a key: what is at the location has the hash and the algorithm. *)
Definition key_valid (L : lib) (c : cert) (k : pub) : Prop :=
  exists a b h s, first_alt L c KEY_EXT a /\ a_by a = false /\ at_loc L (a_loc a) b
    /\ l_spkidec (l_cat L) b = Some (s, []) /\ l_load (l_cat L) s = Ok k /\ hash_in a h /\ digest L h (l_der L k) (a_val a)
    /\ k_alg s = a_alg a.
(** The certificate without its signature extensions. *)
Definition unsigned (c : cert) : cert :=
  {| c_tbs := {| t_rest := t_rest (c_tbs c); t_alg := t_alg (c_tbs c); t_spki := t_spki (c_tbs c);
                 t_exts := match without SIG_EXT (exts c) with [] => None | l => Some l end |};
     c_alg := c_alg c; c_sig := c_sig c |}.
(** The last signature extension refers to a signature of everything but the signature extensions; none is critical. *)
Definition sig_valid (L : lib) (c : cert) (k : pub) (given : option bytes) : Prop :=
  all_decoded L (exts c) SIG_EXT /\ (forall e, In e (exts c) -> x_id e = SIG_EXT -> x_crit e = false)
  /\ exists a s h, last_alt L (exts c) SIG_EXT a /\ (given = Some s \/ (given = None /\ at_loc L (a_loc a) s))
       /\ hash_in a h /\ digest L h s (a_val a)
       /\ l_verify_alg (l_cat L) k (a_alg a) (l_tbsenc (l_cat L) (c_tbs (unsigned c))) s = Ok tt.
(** The certificate is signed by the issuer, in Form4. *)
Definition signed_by (L : lib) (c4 issuer : cert) : Prop :=
  exists k a, l_load (l_cat L) (t_spki (c_tbs issuer)) = Ok k /\ l_verifies (l_cat L) k = true /\ t_alg (c_tbs c4) = Some a
    /\ l_verify_alg (l_cat L) k a (l_tbsenc (l_cat L) (c_tbs c4)) (c_sig c4) = Ok tt.

(** ** The alternative key of a certificate *)

(** What an extension of this scheme gives: the key in it, or at the location. *)
Definition sun_key (L : lib) (c : cert) (k : pub) : Prop :=
  exists e a r b, first_is (exts c) KEY_EXT e /\ l_altdec L (x_val e) = Some (a, r) /\ key_from L b k
    /\ (if a_by a then b = a_val a else at_loc L (a_loc a) b).
(** The descriptor of a related certificate in the first subjectInfoAccess extension; none if there is none. *)
Definition discovery (L : lib) (c : cert) (d : option bytes) : Prop :=
  (~ occurs SIA (exts c) /\ d = None)
  \/ exists e, first_is (exts c) SIA e /\ ((exists x, l_descriptor L e = Ok x /\ d = Some x) \/ (l_descriptor L e = Err EValueError /\ d = None)).
(** The key of another certificate. *)
Definition key_of (L : lib) (x : cert) (k : pub) : Prop := l_load (l_cat L) (t_spki (c_tbs x)) = Ok k.
Definition composite_key (c : cert) : Prop := In (g_oid (k_alg (t_spki (c_tbs c)))) (map fst COMPOSITE_SIG_OID_TO_NAME).
(** The order of the sources: this scheme, a related certificate, a catalyst extension, discovery, a paired certificate, a
    composite key. *)
Inductive alt_key_of (L : lib) (c : cert) (others : option (list cert)) (k : pub) : Prop :=
| AK_sun d : discovery L c d -> sun_key L c k -> alt_key_of L c others k
| AK_related d cs x : discovery L c d -> ~ occurs KEY_EXT (exts c) -> occurs RELATED (exts c) -> others = Some cs ->
    l_related L cs c = Ok x -> key_of L x k -> alt_key_of L c others k
| AK_catalyst d e s : discovery L c d -> ~ occurs KEY_EXT (exts c) -> (~ occurs RELATED (exts c) \/ others = None) ->
    first_is (exts c) ALT_SPKI e -> l_spkidec (l_cat L) (x_val e) = Some (s, []) -> l_load (l_cat L) s = Ok k ->
    l_pqverify L k = true -> alt_key_of L c others k
| AK_discovery d x : discovery L c (Some d) -> ~ occurs KEY_EXT (exts c) -> (~ occurs RELATED (exts c) \/ others = None) ->
    ~ occurs ALT_SPKI (exts c) -> l_discover L d = Ok x -> key_of L x k -> alt_key_of L c others k
| AK_paired s : discovery L c None -> ~ occurs KEY_EXT (exts c) -> (~ occurs RELATED (exts c) \/ others = None) ->
    ~ occurs ALT_SPKI (exts c) -> occurs DELTA (exts c) -> l_delta L c = Ok s -> l_load (l_cat L) s = Ok k -> alt_key_of L c others k
| AK_composite x t : discovery L c None -> ~ occurs KEY_EXT (exts c) -> (~ occurs RELATED (exts c) \/ others = None) ->
    ~ occurs ALT_SPKI (exts c) -> ~ occurs DELTA (exts c) -> composite_key c -> key_of L c x -> l_parts L x = Some (t, k) ->
    alt_key_of L c others k.

(** ** Issuing *)

(** The hash that is used for a key: the one asked for, or that of the composite algorithm, or "sha256". *)
Definition hash_used (L : lib) (h : option string) (k : pub) (n : string) : Prop :=
  (h = Some n /\ n <> "")
  \/ (no_name h /\ (lookup (l_oid L k) COMPOSITE_SIG_PREHASH_OID_2_HASH = Some n
                    \/ (lookup (l_oid L k) COMPOSITE_SIG_PREHASH_OID_2_HASH = None /\ n = "sha256"))).
Definition ext_of (L : lib) (o : oid) (a : alt) : ext := {| x_id := o; x_crit := false; x_val := l_altenc L a |}.
Definition tbs_of (rest : bytes) (a : alg) (s : spki) (l : list ext) : tbs := {| t_rest := rest; t_alg := Some a; t_spki := s; t_exts := Some l |}.
(** A pair of certificates, in Form4 and in Form1, of a traditional and a post-quantum key: the alternative key signs all but
    its own extension and the key of the CA signs Form4. [before] and [after] are the other extensions, [sig] is the
    alternative signature as it is written; [written] is the hash in the signature algorithm of the TBSCertificate and [used]
    that of the signature. *)
Definition sun_pair (L : lib) (ts : spki) (q : pub) (rest : bytes) (ca altk : skey) (kn : string) (kloc : option string)
  (sn : string) (sloc : option string) (written used : string) (before after : list ext) (bad : bool) (sig : bytes) (c4 c1 : cert) : Prop :=
  exists a ak ak1 s sg sa sa1 ta cs,
    l_sigalg (l_cat L) ca (Some written) false = Ok a
    /\ key_value L q false (Some kn) kloc ak /\ key_value L q true (Some kn) kloc ak1
    /\ l_sign (l_cat L) altk (l_tbsenc (l_cat L) (tbs_of rest a ts (before ++ [ext_of L KEY_EXT ak] ++ after))) (Some sn) false = Ok s
    /\ l_sigalg (l_cat L) altk (Some sn) false = Ok sg
    /\ (if bad then manipulate_first_byte s = Ok sig else sig = s)
    /\ sig_value L sig sg false (Some sn) sloc sa /\ sig_value L sig sg true (Some sn) sloc sa1
    /\ c4 = {| c_tbs := tbs_of rest a ts (before ++ [ext_of L KEY_EXT ak] ++ after ++ [ext_of L SIG_EXT sa]); c_alg := Some ta; c_sig := cs |}
    /\ l_sign (l_cat L) ca (l_tbsenc (l_cat L) (c_tbs c4)) (Some used) false = Ok cs
    /\ l_sigalg (l_cat L) ca (Some used) false = Ok ta
    /\ exists c', with_alt L c4 KEY_EXT ak1 c' /\ with_alt L c' SIG_EXT sa1 c1.
(** The last attribute of a type, or none. *)
Definition attr_is {A} (l : list (oid * bytes)) (o : oid) (d : bytes -> A -> Prop) (r : option A) : Prop :=
  (exists p v q x, l = p ++ (o, v) :: q /\ ~ In o (map fst q) /\ d v x /\ r = Some x) \/ (~ In o (map fst l) /\ r = None).
Definition alg_in (L : lib) (v : bytes) (a : alg) : Prop := exists r, l_algdec (l_cat L) v = Some (a, r).
Definition text_in (L : lib) (v : bytes) (x : string) : Prop := l_text L v = Ok x.
(** What a key signs with a hash is verified under the algorithm written with a hash. *)
Definition verified (L : lib) (sk : skey) (written used : string) (k : pub) : Prop :=
  forall a d s, l_sigalg (l_cat L) sk (Some written) false = Ok a -> l_sign (l_cat L) sk d (Some used) false = Ok s ->
    l_verify_alg (l_cat L) k a d s = Ok tt.
