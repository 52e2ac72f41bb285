(** Vocabulary of the properties of catalyst certificates and revocation lists. *)
From Coq Require Import String Ascii.
From Verif Require Import Prelude ProtTab CatModel.
Open Scope string_scope.
Open Scope Z_scope.
Open Scope list_scope.
Local Notation oid := ProtTab.oid.

(** ** Lists of extensions *)

Definition occurs (o : oid) (l : list ext) : Prop := exists e, In e l /\ x_id e = o.
(** The first and the last extension of a type. *)
Definition first_is (l : list ext) (o : oid) (e : ext) : Prop :=
  exists a b, l = a ++ e :: b /\ x_id e = o /\ ~ occurs o a.
Definition last_is (l : list ext) (o : oid) (e : ext) : Prop :=
  exists a b, l = a ++ e :: b /\ x_id e = o /\ ~ occurs o b.
(** The extensions of any other type. *)
Definition without (o : oid) (l : list ext) : list ext := filter (fun e => if string_dec (x_id e) o then false else true) l.

(** ** Certificates *)

(** The last extension of each type has the value; the encoding of the signature has no trailing data. *)
Definition has_values (L : lib) (l : list ext) (v : values) : Prop :=
  (exists e r, last_is l ALT_SPKI e /\ l_spkidec L (x_val e) = Some (v_spki v, r)) /\
  (exists e r, last_is l ALT_ALG e /\ l_algdec L (x_val e) = Some (v_alg v, r)) /\
  (exists e, last_is l ALT_SIG e /\ l_bitsdec L (x_val e) = Some (v_sig v, [])).
(** The algorithm is the one demanded: by its object identifier, or by the name of a post-quantum algorithm. *)
Definition demanded (L : lib) (a : alg) (must : option string) : Prop :=
  match must with
  | None => True
  | Some n => (In "."%char (list_ascii_of_string n) /\ l_str L (g_oid a) = n)
              \/ (~ In "."%char (list_ascii_of_string n) /\ In n PQ_NAMES /\ l_str L (g_oid a) = l_str L (pq n))
  end.
(** The key that must have signed a certificate: that of the issuer, the one given, or its own. *)
Definition signer_key (L : lib) (c : cert) (issuer : option cert) (key : option pub) (k : pub) : Prop :=
  match issuer, key with
  | Some i, _ => l_load L (t_spki (c_tbs i)) = Ok k
  | None, Some x => k = x
  | None, None => l_load L (t_spki (c_tbs c)) = Ok k
  end.
(** What the alternative signature of a certificate is made for. *)
Definition covered (L : lib) (c : cert) : bytes :=
  l_preenc L {| p_rest := t_rest (c_tbs c); p_spki := t_spki (c_tbs c);
                p_exts := without ALT_SIG (exts_of (t_exts (c_tbs c))) |}.
(** Both signatures are valid: the one of the issuer, and the one made with the key in the certificate. *)
Definition catalyst_valid (L : lib) (c : cert) (k : pub) (v : values) : Prop :=
  l_verifies L k = true /\
  (exists a, t_alg (c_tbs c) = Some a /\ l_verify_alg L k a (l_tbsenc L (c_tbs c)) (c_sig c) = Ok tt) /\
  exists q h, l_load L (v_spki v) = Ok q /\ l_verifies L q = true /\ get_hash_from_oid (g_oid (v_alg v)) true = Ok h /\
              l_verify_hash L q h (covered L c) (v_sig v) = Ok tt.

(** Decoding undoes encoding, and a key is loaded from its own encoding. *)
Record cat_laws (L : lib) : Prop := {
  cl_alg : forall a, l_algdec L (l_algenc L a) = Some (a, []);
  cl_spki : forall a, l_spkidec L (l_spkienc L a) = Some (a, []);
  cl_bits : forall a, l_bitsdec L (l_bitsenc L a) = Some (a, []);
  cl_load : forall k s, l_spki L k = Ok s -> l_load L s = Ok k
}.
(** What a key signs is verified with its public key, by the hash function of its algorithm or by the algorithm. *)
Definition sound_hash (L : lib) (k : skey) (h : option string) (pss : bool) : Prop :=
  forall a d s, l_sigalg L k h pss = Ok a -> l_sign L k d h false = Ok s ->
  exists x, get_hash_from_oid (g_oid a) true = Ok x /\ l_verify_hash L (l_pub L k) x d s = Ok tt.
Definition sound_alg (L : lib) (k : skey) (h : option string) (pss pss' : bool) : Prop :=
  forall a d s, l_sigalg L k h pss = Ok a -> l_sign L k d h pss' = Ok s -> l_verify_alg L (l_pub L k) a d s = Ok tt.
(** A spoiled signature is not valid. *)
Definition spoils (L : lib) (k : skey) (h : option string) (pss : bool) : Prop :=
  forall a d s s', l_sigalg L k h pss = Ok a -> l_sign L k d h false = Ok s -> l_spoil L s k = Ok s' ->
  exists x, get_hash_from_oid (g_oid a) true = Ok x /\ l_verify_hash L (l_pub L k) x d s' = Err EInvalidSignature.

(** ** Revocation lists *)

(** Every extension of the three types is decoded without trailing data. *)
Definition all_whole (L : lib) (l : list ext) : Prop :=
  forall e, In e l ->
  (x_id e = ALT_SIG -> exists s, l_bitsdec L (x_val e) = Some (s, [])) /\
  (x_id e = ALT_ALG -> exists a, l_algdec L (x_val e) = Some (a, [])) /\
  (x_id e = ALT_SPKI -> exists k, l_spkidec L (x_val e) = Some (k, [])).
(** The alternative key: the one given, or the first in the list. *)
Definition alt_key (L : lib) (l : list ext) (given : option pub) (q : pub) : Prop :=
  match given with
  | Some x => q = x
  | None => exists e s, first_is l ALT_SPKI e /\ l_spkidec L (x_val e) = Some (s, []) /\ l_load L s = Ok q
  end.
(** The signature of the CA. *)
Definition ca_signed (L : lib) (r : crl) (ca : spki) : Prop :=
  exists h k, get_hash_from_oid (g_oid (r_alg r)) true = Ok h /\ l_load L ca = Ok k /\ l_verifies L k = true /\
              l_verify_hash L k h (l_crlenc L (r_rest r) (r_exts r)) (r_sig r) = Ok tt.
(** The alternative signature [s], to be verified with [q] for the algorithm [a]. *)
Definition alt_signed (L : lib) (l : list ext) (given : option pub) (a : alg) (q : pub) (s : bytes) : Prop :=
  all_whole L l /\ alt_key L l given q /\ l_verifies L q = true /\
  (exists e, last_is l ALT_ALG e /\ l_algdec L (x_val e) = Some (a, [])) /\
  (exists e, last_is l ALT_SIG e /\ l_bitsdec L (x_val e) = Some (s, [])).
(** What the alternative signature of a list is made for: the list without that signature, and the algorithm of the CA. *)
Definition crl_covered (L : lib) (r : crl) (l : list ext) : bytes :=
  l_crlenc L (r_rest r) (Some (without ALT_SIG l)) ++ l_algenc L (r_alg r).
(** The extensions of a list signed with an alternative key: those it had, the algorithm, perhaps the key, the signature over
    the list with these and the algorithm of the list. *)
Definition crl_extended (L : lib) (r : crl) (k : skey) (incl : bool) (h : option string) (pss crit badalt : bool) (a : alg)
  (x : option (list ext)) : Prop :=
  exists aa more s s',
    l_sigalg L k h pss = Ok aa
    /\ (if incl then exists sk, l_spki L (l_pub L k) = Ok sk /\ more = [{| x_id := ALT_SPKI; x_crit := crit; x_val := l_spkienc L sk |}]
        else more = [])
    /\ let l := exts_of (r_exts r) ++ {| x_id := ALT_ALG; x_crit := crit; x_val := l_algenc L aa |} :: more in
       l_sign L k (l_crlenc L (r_rest r) (Some l) ++ l_algenc L a) h false = Ok s
       /\ (if badalt then l_spoil L s k = Ok s' else s' = s)
       /\ x = Some (l ++ [{| x_id := ALT_SIG; x_crit := crit; x_val := l_bitsenc L s' |}]).
(** The hash of the alternative signature: the one given for it, or else that of the signature; an empty name is none. *)
Definition other_or (ah h hh : option string) : Prop :=
  (hh = ah /\ ah <> None /\ ah <> Some "") \/ (hh = h /\ (ah = None \/ ah = Some "")).
