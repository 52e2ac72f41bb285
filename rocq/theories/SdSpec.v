(** Vocabulary of the properties of SignedData: which algorithm fits which key, which hash function an algorithm uses, when a
    SignedData is accepted. Nothing here computes anything of the model. *)
From Coq Require Import String Ascii.
From Verif Require Import Prelude PyStr CertChainModel BitModel SdModel.
Open Scope string_scope.
Open Scope Z_scope.
Open Scope list_scope.
Local Notation oid := string.

(** ** Algorithms *)

Definition ecdsa : list oid :=
  ["ecdsa_with_SHA224"; "ecdsa_with_SHA256"; "ecdsa_with_SHA384"; "ecdsa_with_SHA512"; "id_ecdsa_with_shake128"; "id_ecdsa_with_shake256"].
Definition eddsa : list oid := ["id_Ed25519"; "id_Ed448"].
Definition rsa_pkcs1 : list oid :=
  ["sha1WithRSAEncryption"; "sha224WithRSAEncryption"; "sha256WithRSAEncryption"; "sha384WithRSAEncryption"; "sha512WithRSAEncryption";
   "id_rsassa_pkcs1_v1_5_with_sha3_224"; "id_rsassa_pkcs1_v1_5_with_sha3_256"; "id_rsassa_pkcs1_v1_5_with_sha3_384";
   "id_rsassa_pkcs1_v1_5_with_sha3_512"].
Definition rsa_pss : list oid := ["id_RSASSA_PSS"; "id_RSASSA_PSS_SHAKE128"; "id_RSASSA_PSS_SHAKE256"].
(** Signature algorithms with the algorithm of their key: of post-quantum keys, signing the message or its hash; of composite
    keys, with either padding of RSA. *)
Definition pq_keys : list (oid * oid) :=
  [("pq:ml-dsa-44", "pq:ml-dsa-44"); ("pq:ml-dsa-44-sha512", "pq:ml-dsa-44");
   ("pq:ml-dsa-65", "pq:ml-dsa-65"); ("pq:ml-dsa-65-sha512", "pq:ml-dsa-65");
   ("pq:ml-dsa-87", "pq:ml-dsa-87"); ("pq:ml-dsa-87-sha512", "pq:ml-dsa-87");
   ("pq:slh-dsa-sha2-128s", "pq:slh-dsa-sha2-128s"); ("pq:slh-dsa-sha2-128s-sha256", "pq:slh-dsa-sha2-128s");
   ("pq:slh-dsa-sha2-128f", "pq:slh-dsa-sha2-128f"); ("pq:slh-dsa-sha2-128f-sha256", "pq:slh-dsa-sha2-128f");
   ("pq:slh-dsa-sha2-192s", "pq:slh-dsa-sha2-192s"); ("pq:slh-dsa-sha2-192s-sha512", "pq:slh-dsa-sha2-192s");
   ("pq:slh-dsa-sha2-192f", "pq:slh-dsa-sha2-192f"); ("pq:slh-dsa-sha2-192f-sha512", "pq:slh-dsa-sha2-192f");
   ("pq:slh-dsa-sha2-256s", "pq:slh-dsa-sha2-256s"); ("pq:slh-dsa-sha2-256s-sha512", "pq:slh-dsa-sha2-256s");
   ("pq:slh-dsa-sha2-256f", "pq:slh-dsa-sha2-256f"); ("pq:slh-dsa-sha2-256f-sha512", "pq:slh-dsa-sha2-256f");
   ("pq:slh-dsa-shake-128s", "pq:slh-dsa-shake-128s"); ("pq:slh-dsa-shake-128s-shake128", "pq:slh-dsa-shake-128s");
   ("pq:slh-dsa-shake-128f", "pq:slh-dsa-shake-128f"); ("pq:slh-dsa-shake-128f-shake128", "pq:slh-dsa-shake-128f");
   ("pq:slh-dsa-shake-192s", "pq:slh-dsa-shake-192s"); ("pq:slh-dsa-shake-192s-shake256", "pq:slh-dsa-shake-192s");
   ("pq:slh-dsa-shake-192f", "pq:slh-dsa-shake-192f"); ("pq:slh-dsa-shake-192f-shake256", "pq:slh-dsa-shake-192f");
   ("pq:slh-dsa-shake-256s", "pq:slh-dsa-shake-256s"); ("pq:slh-dsa-shake-256s-shake256", "pq:slh-dsa-shake-256s");
   ("pq:slh-dsa-shake-256f", "pq:slh-dsa-shake-256f"); ("pq:slh-dsa-shake-256f-shake256", "pq:slh-dsa-shake-256f");
   ("pq:falcon-512", "pq:falcon-512"); ("pq:falcon-padded-512", "pq:falcon-padded-512");
   ("pq:falcon-1024", "pq:falcon-1024"); ("pq:falcon-padded-1024", "pq:falcon-padded-1024")].
Definition composite_keys : list (oid * oid) :=
  [("comp:composite-sig-ml-dsa-44-rsa2048", "44-rsa2048"); ("comp:composite-sig-ml-dsa-44-rsa2048-pss", "44-rsa2048");
   ("comp:composite-sig-ml-dsa-44-ed25519", "44-ed25519"); ("comp:composite-sig-ml-dsa-44-ecdsa-secp256r1", "44-p256");
   ("comp:composite-sig-ml-dsa-65-rsa3072", "65-rsa3072"); ("comp:composite-sig-ml-dsa-65-rsa3072-pss", "65-rsa3072");
   ("comp:composite-sig-ml-dsa-65-rsa4096", "65-rsa4096"); ("comp:composite-sig-ml-dsa-65-rsa4096-pss", "65-rsa4096");
   ("comp:composite-sig-ml-dsa-65-ecdsa-secp256r1", "65-p256"); ("comp:composite-sig-ml-dsa-65-ecdsa-secp384r1", "65-p384");
   ("comp:composite-sig-ml-dsa-65-ecdsa-brainpoolP256r1", "65-b256"); ("comp:composite-sig-ml-dsa-65-ed25519", "65-ed25519");
   ("comp:composite-sig-ml-dsa-87-ecdsa-secp384r1", "87-p384"); ("comp:composite-sig-ml-dsa-87-ecdsa-brainpoolP384r1", "87-b384");
   ("comp:composite-sig-ml-dsa-87-ed448", "87-ed448"); ("comp:composite-sig-ml-dsa-87-rsa3072-pss", "87-rsa3072");
   ("comp:composite-sig-ml-dsa-87-rsa4096-pss", "87-rsa4096"); ("comp:composite-sig-ml-dsa-87-ecdsa-secp521r1", "87-p521")].
Definition same_key (keys : list (oid * oid)) (p k : oid) : Prop := exists x, In (p, x) keys /\ In (k, x) keys.
(** The keys that are named by an algorithm of their own. *)
Definition key_oids : list oid := "id_ecPublicKey" :: "rsaEncryption" :: eddsa.

(** The signature algorithm `p` is accepted for the key algorithm `k`. *)
Inductive fits (p k : alg) : Prop :=
| fits_ec : g_oid k = "id_ecPublicKey" -> In (g_oid p) ecdsa -> fits p k
| fits_ed : In (g_oid k) eddsa -> In (g_oid p) eddsa -> fits p k
| fits_rsa : g_oid k = "rsaEncryption" -> In (g_oid p) (rsa_pkcs1 ++ rsa_pss) -> fits p k
| fits_pkcs1 : In (g_oid k) rsa_pkcs1 -> In (g_oid p) rsa_pkcs1 -> fits p k
| fits_pss : g_oid p = "id_RSASSA_PSS" -> p = k -> fits p k
| fits_shake : In (g_oid p) ["id_RSASSA_PSS_SHAKE128"; "id_RSASSA_PSS_SHAKE256"] -> g_oid p = g_oid k -> fits p k
| fits_pq : same_key pq_keys (g_oid p) (g_oid k) -> fits p k
| fits_composite : same_key composite_keys (g_oid p) (g_oid k) -> fits p k
| fits_other : p = k -> ~ In (g_oid p) (key_oids ++ rsa_pkcs1 ++ rsa_pss ++ map fst pq_keys ++ map fst composite_keys) -> fits p k.

(** The hash function a signature algorithm goes with. *)
Definition sig_hashes : list (oid * string) :=
  [("id_Ed25519", "sha512"); ("id_Ed448", "shake256");
   ("sha224WithRSAEncryption", "sha224"); ("sha256WithRSAEncryption", "sha256"); ("sha384WithRSAEncryption", "sha384");
   ("sha512WithRSAEncryption", "sha512");
   ("id_RSASSA_PSS", "sha256"); ("id_RSASSA_PSS_SHAKE128", "shake128"); ("id_RSASSA_PSS_SHAKE256", "shake256");
   ("ecdsa_with_SHA224", "sha224"); ("ecdsa_with_SHA256", "sha256"); ("ecdsa_with_SHA384", "sha384");
   ("ecdsa_with_SHA512", "sha512"); ("id_ecdsa_with_shake128", "shake128"); ("id_ecdsa_with_shake256", "shake256");
   ("pq:ml-dsa-44", "sha512"); ("pq:ml-dsa-44-sha512", "sha512"); ("pq:ml-dsa-65", "sha512"); ("pq:ml-dsa-65-sha512", "sha512");
   ("pq:ml-dsa-87", "sha512"); ("pq:ml-dsa-87-sha512", "sha512");
   ("pq:slh-dsa-sha2-128s", "sha256"); ("pq:slh-dsa-sha2-128s-sha256", "sha256");
   ("pq:slh-dsa-sha2-128f", "sha256"); ("pq:slh-dsa-sha2-128f-sha256", "sha256");
   ("pq:slh-dsa-sha2-192s", "sha512"); ("pq:slh-dsa-sha2-192s-sha512", "sha512");
   ("pq:slh-dsa-sha2-192f", "sha512"); ("pq:slh-dsa-sha2-192f-sha512", "sha512");
   ("pq:slh-dsa-sha2-256s", "sha512"); ("pq:slh-dsa-sha2-256s-sha512", "sha512");
   ("pq:slh-dsa-sha2-256f", "sha512"); ("pq:slh-dsa-sha2-256f-sha512", "sha512");
   ("pq:slh-dsa-shake-128s", "shake128"); ("pq:slh-dsa-shake-128s-shake128", "shake128");
   ("pq:slh-dsa-shake-128f", "shake128"); ("pq:slh-dsa-shake-128f-shake128", "shake128");
   ("pq:slh-dsa-shake-192s", "shake256"); ("pq:slh-dsa-shake-192s-shake256", "shake256");
   ("pq:slh-dsa-shake-192f", "shake256"); ("pq:slh-dsa-shake-192f-shake256", "shake256");
   ("pq:slh-dsa-shake-256s", "shake256"); ("pq:slh-dsa-shake-256s-shake256", "shake256");
   ("pq:slh-dsa-shake-256f", "shake256"); ("pq:slh-dsa-shake-256f-shake256", "shake256");
   ("pq:falcon-512", "sha512"); ("pq:falcon-padded-512", "sha512"); ("pq:falcon-1024", "sha512"); ("pq:falcon-padded-1024", "sha512");
   ("comp:composite-sig-ml-dsa-44-rsa2048", "sha256"); ("comp:composite-sig-ml-dsa-44-rsa2048-pss", "sha256");
   ("comp:composite-sig-ml-dsa-44-ed25519", "sha512"); ("comp:composite-sig-ml-dsa-44-ecdsa-secp256r1", "sha256");
   ("comp:composite-sig-ml-dsa-65-rsa3072", "sha512"); ("comp:composite-sig-ml-dsa-65-rsa3072-pss", "sha512");
   ("comp:composite-sig-ml-dsa-65-rsa4096", "sha512"); ("comp:composite-sig-ml-dsa-65-rsa4096-pss", "sha512");
   ("comp:composite-sig-ml-dsa-65-ecdsa-secp256r1", "sha512"); ("comp:composite-sig-ml-dsa-65-ecdsa-secp384r1", "sha512");
   ("comp:composite-sig-ml-dsa-65-ecdsa-brainpoolP256r1", "sha512"); ("comp:composite-sig-ml-dsa-65-ed25519", "sha512");
   ("comp:composite-sig-ml-dsa-87-ecdsa-secp384r1", "sha512"); ("comp:composite-sig-ml-dsa-87-ecdsa-brainpoolP384r1", "sha512");
   ("comp:composite-sig-ml-dsa-87-ed448", "shake256"); ("comp:composite-sig-ml-dsa-87-rsa3072-pss", "sha512");
   ("comp:composite-sig-ml-dsa-87-rsa4096-pss", "sha512"); ("comp:composite-sig-ml-dsa-87-ecdsa-secp521r1", "sha512")].
(** The hash functions, by their identifiers. *)
Definition hash_ids : list (oid * string) :=
  [("id_sha224", "sha224"); ("id_sha256", "sha256"); ("id_sha384", "sha384"); ("id_sha512", "sha512");
   ("id_hash_algs.11", "shake128"); ("id_hash_algs.12", "shake256")].
(** What stands for a hash function beside its identifier: a signature algorithm that hashes the message first, or a composite one. *)
Definition hash_too (o : oid) (h : string) : Prop :=
  In (o, h) sig_hashes /\ (In o (map fst composite_keys) \/ exists k, In (o, k) pq_keys /\ o <> k).
Definition hash_id (o : oid) (h : string) : Prop := In (o, h) hash_ids \/ hash_too o h.

(** ** SignedData *)

(** The signed attributes: the content type is a key package; every message digest has the expected number of values, the first
    of the last one counts. *)
Definition digest_attr (L : lib) (n : nat) (a : attr) (d : bytes) : Prop :=
  t_type a = "id_messageDigest" /\ List.length (t_vals a) = n /\ exists v r x, t_vals a = v :: r /\ l_octdec L v = Some (d, x).
Definition attributes_give (L : lib) (n : nat) (l : list attr) (d : bytes) : Prop :=
  (exists a, In a l /\ t_type a = "id_contentType" /\ In (l_oidenc L "id_ct_KP_aKeyPackage") (t_vals a))
  /\ (forall a, In a l -> t_type a = "id_messageDigest" -> exists d', digest_attr L n a d')
  /\ exists b a c, l = b ++ a :: c /\ digest_attr L n a d /\ forall a', In a' c -> t_type a' <> "id_messageDigest".

(** The key at the position of a package of `n` keys of the second version. *)
Definition package_key (L : lib) (content : bytes) (n i : nat) (save : option string) (k : key) : Prop :=
  exists pkg o, l_pkgdec L content = Some (pkg, []) /\ List.length pkg = n /\ nth_error pkg i = Some o /\ o_version o = 1
    /\ l_load L o = Ok k /\ (forall t, save = Some t -> l_export L k (o_private o) t = Ok tt).

(** The certificates, in order: one, or the chain built from the first, or, unless that is longer, the one built from the last,
    if it has as many certificates as there are. *)
Definition ordered (L : lib) (l : list choice) (certs : list cert) : Prop :=
  exists cs, l = map ChCert cs
  /\ (((List.length cs <= 1)%nat /\ certs = cs)
      \/ exists f r x m a b, cs = f :: r /\ cs = m ++ [x] /\ r <> [] /\ build_chain_from_list (l_chain L) f r false = Ok a
           /\ build_chain_from_list (l_chain L) x m false = Ok b
           /\ certs = (if (List.length b <? List.length a)%nat then a else b) /\ List.length certs = List.length cs).

(** The chain ends at a trust anchor, and is verified by OpenSSL, or, if a key in it is post-quantum or composite, rebuilt. *)
Definition pq_cert (L : lib) (c : cert) : Prop := In (g_oid (l_spki L c)) (map fst pq_keys ++ map fst composite_keys).
Definition chain_trusted (L : lib) (certs : list cert) (dir os : list cert) : Prop :=
  (exists c r x, certs = c :: r /\ In x (dir ++ os) /\ c_der x = c_der (last certs c))
  /\ (((exists c, In c certs /\ pq_cert L c)
       /\ exists c r ch, certs = c :: r /\ build_chain_from_list (l_chain L) c r false = Ok ch /\ map c_der ch = map c_der certs)
      \/ ((forall c, In c certs -> ~ pq_cert L c) /\ l_openssl L certs = Ok tt)).

(** The extended key usage names the key generation authority, once. *)
Definition kga_usage (L : lib) (c : cert) : Prop :=
  exists l, k_eku (l_usages L c) = Some l /\ List.length (filter (bytes_eqb CM_KGA) l) = 1%nat.

(** The SignedData `d` of `n` keys is accepted and yields the key at position `i`. *)
Definition accepted (L : lib) (d : signed) (n i : nat) (dir os : list cert) (save : option string) (k : key) : Prop :=
  d_version d = 3 /\ List.length (d_digests d) = n /\ List.length (d_signers d) = n
  /\ exists outer content certs c info more s h md,
       nth_error (d_digests d) i = Some outer
       /\ d_encap d = {| n_type := "id_ct_KP_aKeyPackage"; n_content := Some content |}
       /\ package_key L content n i save k
       /\ ordered L (d_certs d) certs /\ hd_error certs = Some c
       /\ d_signers d = info :: more /\ s_version info = 3 /\ (exists x, s_sid info = SidSki x)
       /\ attributes_give L n (s_attrs info) md /\ md = l_hash L h content
       /\ l_algenc L outer = l_algenc L (s_digest info) /\ hash_id (g_oid (s_digest info)) h
       /\ In (g_oid (s_alg info), h) sig_hashes /\ fits (s_alg info) (l_spki L c)
       /\ s_sig info = Some s /\ l_verify L c (l_encapenc L (d_encap d)) s (Some h) = Ok tt
       /\ chain_trusted L certs dir os
       /\ (In (g_oid (s_alg info)) eddsa -> ~ (exists x, In x certs /\ pq_cert L x) ->
             l_verify L c (l_encapenc L (d_encap d)) s None = Ok tt)
       /\ kga_usage L c.

(** ** Building *)

(** The codecs are inverse, and a key that is packed is loaded. *)
Record sd_laws (L : lib) : Prop := {
  w_pkg : forall p, l_pkgdec L (l_pkgenc L p) = Some (p, []);
  w_oct : forall b, l_octdec L (l_octenc L b) = Some (b, []);
  w_one : forall k t o, l_one L k t = Ok o -> o_version o = 1 /\ l_load L o = Ok k
}.
(** The certificate `c` is that of the key `k` of a key generation authority, which signs by `o` with the hash `h`. *)
Definition certified (L : lib) (k : key) (c : cert) (o : oid) (h : string) : Prop :=
  l_sigoid L k h = Ok o /\ In (o, h) sig_hashes /\ fits {| g_oid := o; g_par := None |} (l_spki L c)
  /\ (exists x, l_ski L c = Some x) /\ kga_usage L c
  /\ forall data s, l_sign L k data h = Ok s ->
       l_verify L c data s (Some h) = Ok tt /\ (In o eddsa -> l_verify L c data s None = Ok tt).
(** The hash a caller asks for: a name, or none, for the one of the key. *)
Definition asked (L : lib) (k : key) (w : option string) (h : string) : Prop := w = Some h \/ (w = None /\ l_defhash L k = Ok h).
(** The hash function a name stands for: what follows the first dash, up to the next, if there is one. *)
Definition hash_named (name n : string) : Prop :=
  (~ In "-"%char (list_ascii_of_string name) /\ n = name) \/ exists a r, split "-"%char name = a :: n :: r.
(** The first signer with other attributes, another identifier; other signers after the first. *)
Definition with_attrs (d : signed) (l : list attr) : signed :=
  {| d_version := d_version d; d_digests := d_digests d; d_encap := d_encap d; d_certs := d_certs d;
     d_signers := match d_signers d with
                  | [] => []
                  | i :: r => {| s_version := s_version i; s_sid := s_sid i; s_digest := s_digest i; s_attrs := l;
                                 s_alg := s_alg i; s_sig := s_sig i |} :: r
                  end |}.
Definition with_ski (d : signed) (x : bytes) : signed :=
  {| d_version := d_version d; d_digests := d_digests d; d_encap := d_encap d; d_certs := d_certs d;
     d_signers := match d_signers d with
                  | [] => []
                  | i :: r => {| s_version := s_version i; s_sid := SidSki x; s_digest := s_digest i; s_attrs := s_attrs i;
                                 s_alg := s_alg i; s_sig := s_sig i |} :: r
                  end |}.
Definition with_more (d : signed) (r : list signer) : signed :=
  {| d_version := d_version d; d_digests := d_digests d; d_encap := d_encap d; d_certs := d_certs d;
     d_signers := match d_signers d with [] => [] | i :: _ => i :: r end |}.
