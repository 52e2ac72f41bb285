(** Vocabulary of the properties about consistent protection (C95 to C97). *)
From Coq Require Import String Ascii.
From Verif Require Import Prelude PyStr CompLoadModel HdrModel ProtTab ProtModel ProtSpec.
Open Scope string_scope.
Open Scope Z_scope.
Local Notation length := List.length.

(** Two algorithm identifiers agree: they have one encoding; when [allow_null] is off the second one has no parameters
    at all and the parameters of the first are free. *)
Definition same_alg (L : lib) (allow_null : bool) (a1 a2 : algid) : Prop :=
  if allow_null then l_enc L (PAlg a1) = l_enc L (PAlg a2) else a_oid a1 = a_oid a2 /\ a_params a2 = PAbsent.
(** Salts have to be equal, or have to be different. *)
Definition salt_rule (same_salt : bool) (s1 s2 : bytes) : Prop := if same_salt then s1 = s2 else s1 <> s2.
Inductive salts_agree (L : lib) (same_salt allow_null : bool) : psalt -> psalt -> Prop :=
| SA_spec : forall x y, salt_rule same_salt x y -> salts_agree L same_salt allow_null (SaltSpec x) (SaltSpec y)
| SA_other : forall x y, same_alg L allow_null x y -> salts_agree L same_salt allow_null (SaltOther x) (SaltOther y).
(** The bytes of undecoded parameters, and the encoding of parameters that are present. *)
Definition octets (p : params) (b : bytes) : Prop := p = PRaw b \/ p = POctets b \/ (p = PNull /\ b = []).
Definition der_of (L : lib) (p : params) (d : bytes) : Prop := wire L p = PRaw d.
Definition decodes {A} (dec : bytes -> option (A * bytes)) (p : params) (x : A) : Prop :=
  exists b r, (p = PRaw b \/ p = POctets b) /\ dec b = Some (x, r).

(** The parameters of a sent and of a received algorithm agree. *)
Inductive params_match (L : lib) (same_salt allow_null : bool) : algid -> algid -> Prop :=
| PM_pbm : forall s1 o1 i m1 o2 p2 b s2 f2 m2 r,
    octets p2 b -> l_dec_pbm L b = Some ((s2, f2, i, m2), r) -> salt_rule same_salt s1 s2 ->
    same_alg L allow_null o1 f2 -> same_alg L allow_null m1 m2 ->
    params_match L same_salt allow_null (Alg "id_PasswordBasedMac" (PPbm s1 o1 i m1)) (Alg o2 p2)
| PM_pbmac1 : forall p1 d o2 p2 b k1 m1 r1 k2 m2 r2 s1 s2 i n f1 f2,
    der_of L p1 d -> octets p2 b -> l_dec_pbmac1 L d = Some ((k1, m1), r1) -> l_dec_pbmac1 L b = Some ((k2, m2), r2) ->
    decodes (l_dec_pbkdf2 L) (a_params k1) (s1, i, n, f1) -> decodes (l_dec_pbkdf2 L) (a_params k2) (s2, i, n, f2) ->
    salts_agree L same_salt allow_null s1 s2 -> same_alg L allow_null f1 f2 -> same_alg L allow_null m1 m2 ->
    params_match L same_salt allow_null (Alg "id_PBMAC1" p1) (Alg o2 p2)
| PM_other : forall o1 p1 d o2 p2, o1 <> "id_PBMAC1" -> o1 <> "id_PasswordBasedMac" -> der_of L p1 d -> octets p2 d ->
    params_match L same_salt allow_null (Alg o1 p1) (Alg o2 p2).
(** With [same_salt] and without [allow_null] the bytes are the same as well. *)
Definition bytes_match (L : lib) (same_salt allow_null : bool) (a1 a2 : algid) : Prop :=
  allow_null = false -> same_salt = true -> exists d, der_of L (a_params a1) d /\ octets (a_params a2) d.

(** The algorithm of a message. *)
Definition alg_is (m : msg) (a : algid) : Prop := h_alg (m_header m) = Some a.
Definition opt_msg (P : msg -> Prop) (o : option msg) : Prop := match o with None => True | Some m => P m end.
Definition lw_macs : list oid := ["id_PBMAC1"; "id_PasswordBasedMac"].

(** Encoding does not depend on whether nested parameters are structures or already encoded. *)
Definition enc_ok (L : lib) : Prop := forall a, l_enc L (PAlg (wire_alg L a)) = l_enc L (PAlg a).
(** The salt that is used: the one given, sixteen fresh bytes in the place of none or an empty one. *)
Definition used_salt (o : popts) (rnd : Z -> bytes) (s : bytes) : Prop :=
  exists g, match o_salt o with None => g = rnd 16 | Some None => False | Some (Some v) => str_to_bytes v = Ok g end /\
    s = (if Z.of_nat (length g) =? 0 then rnd 16 else g).

(** The hash an identifier names: a signature or HMAC identifier with a hash in its name, or one without a hash. *)
Definition plain_oids : list oid :=
  ("id_Ed25519" :: "id_Ed448" :: List.map pq (pq_key_names ++ PQ_KEM_NAMES) ++ stateful_oids)%list.
Inductive sig_hash : oid -> option string -> Prop :=
| SH_some : forall o h, In (o, h) prf_hashes -> sig_hash o (Some h)
| SH_none : forall o, In o plain_oids -> sig_hash o None.
(** The scheme a key verifies with when only the hash is known. *)
Inductive cert_scheme : option string -> kkind -> scheme -> Prop :=
| CS_rsa : forall h, cert_scheme (Some h) KRsa (SPkcs1 h)
| CS_ec : forall h, cert_scheme (Some h) KEc (SEcdsa h)
| CS_dsa : forall h, cert_scheme (Some h) KDsa (SDsa h)
| CS_ed25519 : forall x, cert_scheme x KEd25519 SEd
| CS_ed448 : forall x, cert_scheme x KEd448 SEd
| CS_pre : forall n h, In (n, h) pq_prehash -> cert_scheme (Some h) (KPq n) (SPq (Some h))
| CS_pq : forall n x, (forall h, x = Some h -> ~ In (n, h) pq_prehash) -> cert_scheme x (KPq n) (SPq None)
| CS_comp : forall x a b, cert_scheme x (KComp a b) (SComp false)
| CS_stf : forall x o, cert_scheme x (KStf o) SStf.
(** The signature of a message verifies with the key of a certificate. *)
Definition signed_by (L : lib) (c : cert) (h : option string) (m : msg) : Prop :=
  exists data v k s, part_of L m data /\ m_prot m = Some v /\ c_pub c = Ok k /\ cert_scheme h (k_kind k) s /\
    l_verify L s k v data = Ok tt.
(** Two certificate lists have chains with the same encoding. *)
Definition one_chain (chain : cert -> list cert -> result (list cert)) (ee : cert) (l1 l2 : list cert) : Prop :=
  exists c1 c2, chain ee l1 = Ok c1 /\ chain ee l2 = Ok c2 /\ List.concat (List.map c_der c1) = List.concat (List.map c_der c2).
(** A message has the algorithm of another one and neither has parameters. *)
Definition bare_alg (o : oid) (m : msg) : Prop := exists b, alg_is m b /\ a_oid b = o /\ a_params b = PAbsent.
(** The bytes of a password: bytes are used as they are, text after "0x" is hexadecimal with white space between bytes,
    other text is its encoding. *)
Definition hexits : list (ascii * Z) :=
  (List.combine (list_ascii_of_string "0123456789abcdef") [0; 1; 2; 3; 4; 5; 6; 7; 8; 9; 10; 11; 12; 13; 14; 15]
   ++ List.combine (list_ascii_of_string "ABCDEF") [10; 11; 12; 13; 14; 15])%list.
Definition blank (c : ascii) : Prop := In (zcode c) [9; 10; 11; 12; 13; 32].
Inductive hex_of : string -> bytes -> Prop :=
| HX_nil : hex_of "" []
| HX_blank : forall c r b, blank c -> hex_of r b -> hex_of (String c r) b
| HX_byte : forall c x d y r b, In (c, x) hexits -> In (d, y) hexits -> hex_of r b -> hex_of (String c (String d r)) (16 * x + y :: b).
Inductive pw_bytes : sval -> bytes -> Prop :=
| PB_bytes : forall b, pw_bytes (SvBytes b) b
| PB_hex : forall r b, hex_of r b -> pw_bytes (SvStr ("0x" ++ r)) b
| PB_text : forall s, String.prefix "0x" s = false -> pw_bytes (SvStr s) (List.map zcode (list_ascii_of_string s)).
