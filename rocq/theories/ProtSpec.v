(** Vocabulary of the message protection properties, and what is assumed of the libraries. *)
From Coq Require Import String Ascii.
From Verif Require Import Prelude PyStr CompLoadModel HdrModel ProtTab ProtModel.
Open Scope string_scope.
Open Scope Z_scope.
Local Notation length := List.length.

(** ** The libraries *)

(** Undecoded parameters are complete DER values and the structures respect their constraints, all the way down. *)
Fixpoint wf_alg (L : lib) (a : algid) : bool := match a with Alg _ p => wf_params L p end
with wf_params (L : lib) (p : params) : bool :=
  match p with
  | PAbsent | PNull | POctets _ | PGcm _ => true
  | PRaw b => l_tlv L b
  | PPbmac1 k m => wf_alg L k && wf_alg L m
  | PPbkdf2 s i n a => wf_psalt L s && wf_alg L a && (1 <=? i) && match n with Some x => 1 <=? x | None => true end
  | PPbm s o _ m => (Z.of_nat (length s) <=? 128) && wf_alg L o && wf_alg L m
  | PDhbm o m => wf_alg L o && wf_alg L m
  | PKem k _ n m => wf_alg L k && wf_alg L m && (1 <=? n)
  | PPss h g _ => wf_alg L h && wf_alg L g
  | PAlg a => wf_alg L a
  | PCt a _ => wf_alg L a
  end
with wf_psalt (L : lib) (s : psalt) : bool := match s with SaltSpec _ => true | SaltOther a => wf_alg L a end.
Definition wf_header (L : lib) (h : header) : bool :=
  match h_alg h with None => true | Some a => wf_alg L a end && forallb (fun i => wf_params L (i_val i)) (h_info h).
Definition wire_salt (L : lib) (s : psalt) : psalt :=
  match s with SaltSpec b => SaltSpec b | SaltOther a => SaltOther (wire_alg L a) end.

(** Decoding gives back what was encoded. *)
Record codec_ok (L : lib) : Prop := {
  ck_null : l_enc L PNull = [5; 0] /\ l_tlv L [5; 0] = true;
  ck_pbmac1 : forall k m, wf_params L (PPbmac1 k m) = true ->
    l_dec_pbmac1 L (l_enc L (PPbmac1 k m)) = Some ((wire_alg L k, wire_alg L m), []);
  ck_pbkdf2 : forall s i n a, wf_params L (PPbkdf2 s i n a) = true ->
    l_dec_pbkdf2 L (l_enc L (PPbkdf2 s i n a)) = Some ((wire_salt L s, i, n, wire_alg L a), []);
  ck_pbm : forall s o i m, wf_params L (PPbm s o i m) = true ->
    l_dec_pbm L (l_enc L (PPbm s o i m)) = Some ((s, wire_alg L o, i, wire_alg L m), []);
  ck_gcm : forall n, l_dec_gcm L (l_enc L (PGcm n)) = Some (n, []);
  ck_dhbm : forall o m, wf_params L (PDhbm o m) = true ->
    l_dec_dhbm L (l_enc L (PDhbm o m)) = Some ((wire_alg L o, wire_alg L m), []);
  ck_kem : forall k c n m, wf_params L (PKem k c n m) = true ->
    l_dec_kem L (l_enc L (PKem k c n m)) = Some ((wire_alg L k, c, n, wire_alg L m), []);
  ck_pss : forall h g n, wf_params L (PPss h g n) = true ->
    l_dec_pss L (l_enc L (PPss h g n)) = Some ((wire_alg L h, wire_alg L g, n), []);
  ck_alg : forall a, wf_params L (PAlg a) = true -> l_dec_alg L (l_enc L (PAlg a)) = Some (wire_alg L a, []);
  ck_ct : forall a c, wf_params L (PCt a c) = true -> l_dec_ct L (l_enc L (PCt a c)) = Some ((wire_alg L a, c), [])
}.
(** The protected part is determined by the encodings of header and body, and determines them. *)
Record part_ok (L : lib) : Prop := {
  pt_wire : forall h b, l_part L (wire_header L h) b = l_part L h b;
  pt_inj : forall h b h' b' d, wf_header L h = true -> wf_header L h' = true ->
    l_part L h b = Some d -> l_part L h' b' = Some d -> wire_header L h = wire_header L h' /\ b = b'
}.
(** Digests have the sizes of their algorithms; key agreement is symmetric; decapsulation undoes encapsulation; a
    signature verifies under the scheme it was made with. *)
Record prim_ok (L : lib) : Prop := {
  pm_hash : forall h n x, lookup h ALLOWED_HASH_TYPES = Some n -> Z.of_nat (length (l_hash L h x)) = n;
  pm_ecdh : forall a b s, l_ecdh L a b = Ok s -> l_ecdh L b a = Ok s;
  pm_kem : forall k seed s ct, l_encaps L k seed = Ok (s, ct) -> l_decaps L k ct = Ok s;
  pm_sig : forall rnd s k d v, l_sign L rnd s k d = Ok v -> l_verify L s k v d = Ok tt
}.
Record lib_ok (L : lib) : Prop := { lk_codec : codec_ok L; lk_part : part_ok L; lk_prim : prim_ok L }.
(** os.urandom. *)
Definition is_urandom (rnd : Z -> bytes) : Prop := forall n, 0 <= n -> Z.of_nat (length (rnd n)) = n.

(** ** What a message authentication code is *)

(** The HMAC identifiers and their hash. *)
Definition hmacs : list (oid * string) :=
  [("hMAC_SHA1", "sha1"); ("id_hmacWithSHA224", "sha224"); ("id_hmacWithSHA256", "sha256");
   ("id_hmacWithSHA384", "sha384"); ("id_hmacWithSHA512", "sha512"); ("id_hmacWithSHA3_224", "sha3_224");
   ("id_hmacWithSHA3_256", "sha3_256"); ("id_hmacWithSHA3_384", "sha3_384"); ("id_hmacWithSHA3_512", "sha3_512")].
Definition kmacs : list (oid * string) := [("id_KMACWithSHAKE128", "shake128"); ("id_KMACWithSHAKE256", "shake256")].
Definition gmacs : list oid := ["id_aes128_GMAC"; "id_aes192_GMAC"; "id_aes256_GMAC"].
Definition sha1_sha2 : list (oid * string) :=
  [("id_sha1", "sha1"); ("id_sha224", "sha224"); ("id_sha256", "sha256"); ("id_sha384", "sha384"); ("id_sha512", "sha512")].
Definition sha3 : list (oid * string) :=
  [("id_hash_algs.7", "sha3_224"); ("id_hash_algs.8", "sha3_256"); ("id_hash_algs.9", "sha3_384");
   ("id_hash_algs.10", "sha3_512"); ("id_hash_algs.11", "shake128"); ("id_hash_algs.12", "shake256")].
(** Identifiers of signature algorithms, with the hash they sign with: they are accepted where a hash or a
    pseudo-random function is expected. *)
Definition sig_hashes : list (oid * string) :=
  [("sha1WithRSAEncryption", "sha1"); ("sha224WithRSAEncryption", "sha224"); ("sha256WithRSAEncryption", "sha256");
   ("sha384WithRSAEncryption", "sha384"); ("sha512WithRSAEncryption", "sha512");
   ("id_rsassa_pkcs1_v1_5_with_sha3_224", "sha3_224"); ("id_rsassa_pkcs1_v1_5_with_sha3_256", "sha3_256");
   ("id_rsassa_pkcs1_v1_5_with_sha3_384", "sha3_384"); ("id_rsassa_pkcs1_v1_5_with_sha3_512", "sha3_512");
   ("id_RSASSA_PSS", "sha256"); ("id_RSASSA_PSS_SHAKE128", "shake128"); ("id_RSASSA_PSS_SHAKE256", "shake256");
   ("ecdsa_with_SHA224", "sha224"); ("ecdsa_with_SHA256", "sha256"); ("ecdsa_with_SHA384", "sha384");
   ("ecdsa_with_SHA512", "sha512"); ("id_ecdsa_with_shake128", "shake128"); ("id_ecdsa_with_shake256", "shake256");
   ("id_ecdsa_with_sha3_224", "sha3_224"); ("id_ecdsa_with_sha3_256", "sha3_256");
   ("id_ecdsa_with_sha3_384", "sha3_384"); ("id_ecdsa_with_sha3_512", "sha3_512")].
Definition pq_sig_hashes : list (oid * string) :=
  [("pq:ml-dsa-44-sha512", "sha512"); ("pq:ml-dsa-65-sha512", "sha512"); ("pq:ml-dsa-87-sha512", "sha512");
   ("pq:slh-dsa-sha2-128s-sha256", "sha256"); ("pq:slh-dsa-sha2-128f-sha256", "sha256");
   ("pq:slh-dsa-sha2-192s-sha512", "sha512"); ("pq:slh-dsa-sha2-192f-sha512", "sha512");
   ("pq:slh-dsa-sha2-256s-sha512", "sha512"); ("pq:slh-dsa-sha2-256f-sha512", "sha512");
   ("pq:slh-dsa-shake-128s-shake128", "shake128"); ("pq:slh-dsa-shake-128f-shake128", "shake128");
   ("pq:slh-dsa-shake-192s-shake256", "shake256"); ("pq:slh-dsa-shake-192f-shake256", "shake256");
   ("pq:slh-dsa-shake-256s-shake256", "shake256"); ("pq:slh-dsa-shake-256f-shake256", "shake256")].
Definition comp_hashes : list (oid * string) := List.map (fun p => (comp (fst p), snd p)) COMPOSITE_SIG_HASH.
Definition prf_hashes : list (oid * string) := (hmacs ++ sig_hashes)%list.
Definition owf_hashes : list (oid * string) :=
  (sha1_sha2 ++ sha3 ++ hmacs ++ sig_hashes ++ pq_sig_hashes ++ comp_hashes)%list.

(** The parameters are the structure, or bytes decoding to it with nothing left. *)
Definition seen {A} (dec : bytes -> option (A * bytes)) (p s : params) (x : A) : Prop :=
  p = s \/ exists b, (p = PRaw b \/ p = POctets b) /\ dec b = Some (x, []).
(** RFC 4210, 5.1.3.1: hash the password and the salt, [n] times. *)
Fixpoint iterated (f : bytes -> bytes) (n : nat) (x : bytes) : bytes :=
  match n with O => x | S n' => iterated f n' (f x) end.

(** [v] is the message authentication code of [data] under the password [pw] and the algorithm [a]; [fresh] is what is
    used in the place of an empty PasswordBasedMac salt. *)
Inductive mac_value (L : lib) (fresh : bytes) : algid -> bytes -> bytes -> bytes -> Prop :=
| MV_hmac : forall o p h pw data, In (o, h) hmacs -> mac_value L fresh (Alg o p) pw data (l_hmac L h pw data)
| MV_kmac : forall o h pw data v, In (o, h) kmacs -> l_kmac L h pw data = Ok v ->
    mac_value L fresh (Alg o PAbsent) pw data v
| MV_gmac : forall o p n pw data v, In o gmacs -> seen (l_dec_gcm L) p (PGcm n) n -> l_gmac L pw n data = Ok v ->
    mac_value L fresh (Alg o p) pw data v
| MV_pbmac1 : forall p kp mac salt iter n prf hp hm pw data dk mp,
    seen (l_dec_pbmac1 L) p (PPbmac1 (Alg "id_PBKDF2" kp) (Alg mac mp)) (Alg "id_PBKDF2" kp, Alg mac mp) ->
    seen (l_dec_pbkdf2 L) kp (PPbkdf2 (SaltSpec salt) iter (Some n) prf) (SaltSpec salt, iter, Some n, prf) ->
    In (a_oid prf, hp) prf_hashes -> In (mac, hm) hmacs -> l_pbkdf2 L hp pw salt iter n = Ok dk ->
    mac_value L fresh (Alg "id_PBMAC1" p) pw data (l_hmac L hm dk data)
| MV_pbm : forall p salt owf iter mac ho hm pw data,
    seen (l_dec_pbm L) p (PPbm salt owf iter mac) (salt, owf, iter, mac) ->
    In (a_oid owf, ho) owf_hashes -> In (a_oid mac, hm) hmacs ->
    mac_value L fresh (Alg "id_PasswordBasedMac" p) pw data
      (l_hmac L hm (iterated (l_hash L ho) (Z.to_nat iter) (pw ++ (if Z.of_nat (length salt) =? 0 then fresh else salt))%list) data).
Definition mac_oids : list oid :=
  (List.map fst hmacs ++ List.map fst kmacs ++ gmacs ++ ["id_PBMAC1"; "id_PasswordBasedMac"])%list.

(** What the lightweight profile asks of the algorithm: PBMAC1 or PasswordBasedMac, with one SHA-2 hash. *)
Definition sha2_names : list string := ["sha224"; "sha256"; "sha384"; "sha512"].
Inductive lw_mac (L : lib) : algid -> Prop :=
| LW_pbmac1 : forall p k mac salt iter n prf h,
    seen (l_dec_pbmac1 L) p (PPbmac1 k mac) (k, mac) ->
    seen (l_dec_pbkdf2 L) (a_params k) (PPbkdf2 salt iter n prf) (salt, iter, n, prf) ->
    In (a_oid prf, h) prf_hashes -> In (a_oid mac, h) hmacs -> In h sha2_names -> lw_mac L (Alg "id_PBMAC1" p)
| LW_pbm : forall p salt owf iter mac h,
    seen (l_dec_pbm L) p (PPbm salt owf iter mac) (salt, owf, iter, mac) ->
    In (a_oid owf, h) (sha1_sha2 ++ sha3 ++ pq_sig_hashes ++ comp_hashes)%list -> In (a_oid mac, h) hmacs ->
    In h sha2_names -> lw_mac L (Alg "id_PasswordBasedMac" p).

(** ** Derived keys *)

(** The [i]-th block of the ANSI X9.63 / NIST KDF, counting from 1: the counter comes first, or after the secret. *)
Definition be32 (i : Z) : bytes := [i / 16777216; i / 65536 mod 256; i / 256 mod 256; i mod 256].
Definition kdf_block (L : lib) (h : string) (secret_first : bool) (ss other : bytes) (i : Z) : bytes :=
  l_hash L h (if secret_first then ss ++ be32 i ++ other else be32 i ++ ss ++ other)%list.
Definition kdf_stream (L : lib) (h : string) (secret_first : bool) (ss other : bytes) (blocks : nat) : bytes :=
  List.concat (List.map (fun i => kdf_block L h secret_first ss other (Z.of_nat i)) (seq 1 blocks)).

(** ** Messages *)

(** The bytes that are protected: header and body. *)
Definition part_of (L : lib) (m : msg) (data : bytes) : Prop :=
  exists b, m_body m = Some b /\ l_part L (m_header m) b = Some data.
(** The argument of the theorems: a message with a MAC algorithm and a protection value, and a password. *)
Definition mac_message (m : msg) (a : algid) (v : bytes) : Prop :=
  h_alg (m_header m) = Some a /\ In (a_oid a) mac_oids /\ m_prot m = Some v.
Definition with_password (o : vopts) (pw : bytes) : Prop :=
  exists p, v_password o = Some p /\ str_to_bytes p = Ok pw.
(** What protect_pkimessage may be asked for: a MAC, with the hash it names. *)
Definition is_mac_protection (p : protalg) : bool :=
  match p with PA_HMAC | PA_KMAC | PA_PBMAC1 | PA_PBM | PA_GMAC => true | _ => false end.
(** The hash a protection uses: the one given, or the default. *)
Definition hash_of (pa : protalg) (o : popts) : string :=
  rstrip is_space (lower (dflt (o_hash o) (match pa with PA_PBMAC1 => "sha512" | PA_KMAC => "shake128" | _ => "sha256" end))).

(** ** Agreed secrets *)

(** RFC 4210, 5.1.3.2 (and its erratum): a key of [want] bytes from a base key: the base key, then the hashes of "1",
    "2", ... followed by the base key. *)
Definition base_stream (L : lib) (owf : string) (base : bytes) (blocks : nat) : bytes :=
  (base ++ List.concat (List.map (fun i => l_hash L owf (dec_ascii (Z.of_nat i) ++ base)%list) (seq 1 blocks)))%list.
(** The public key a peer argument stands for. *)
Definition peer_key (p : peer) : result key := match p with PeerKey k => Ok k | PeerCert c => c_pub c end.
(** The verifier's view of the sender's public key: the argument, or the first extra certificate. *)
Definition sender_key (m : msg) (w : vopts) (k : key) : Prop :=
  v_public w = Some k \/ (v_public w = None /\ exists c r, m_certs m = c :: r /\ c_pub c = Ok k).
(** A key of [n] bytes from the shared secret [ss]. *)
Definition secret_key (L : lib) (owf : string) (ss : bytes) (n : Z) : bytes :=
  firstn (Z.to_nat n)
    (if n <=? Z.of_nat (length ss) then ss
     else base_stream L owf ss (Z.to_nat ((n + Z.of_nat (length ss) - 1) / Z.of_nat (length ss) - 1))).
(** Like [seen], but bytes left over are ignored. *)
Definition seen_lax {A} (dec : bytes -> option (A * bytes)) (p s : params) (x : A) : Prop :=
  p = s \/ exists b r, (p = PRaw b \/ p = POctets b) /\ dec b = Some (x, r).
Definition gmac_keys : list (oid * Z) := [("id_aes128_GMAC", 16); ("id_aes192_GMAC", 24); ("id_aes256_GMAC", 32)].
(** [v] is the DH-based MAC of [data] under the shared secret [ss]. *)
Inductive dh_value (L : lib) : algid -> bytes -> bytes -> bytes -> Prop :=
| DV_hmac : forall p owf mac ho hm ss data,
    seen (l_dec_dhbm L) p (PDhbm owf mac) (owf, mac) -> In (a_oid owf, ho) sha1_sha2 -> In (a_oid mac, hm) hmacs ->
    dh_value L (Alg "id_DHBasedMac" p) ss data (l_hmac L hm (l_hash L ho ss) data)
| DV_gmac : forall p owf mac ho n nonce ss data v,
    seen (l_dec_dhbm L) p (PDhbm owf mac) (owf, mac) -> In (a_oid owf, ho) sha1_sha2 -> In (a_oid mac, n) gmac_keys ->
    seen_lax (l_dec_gcm L) (a_params mac) (PGcm nonce) nonce -> ss <> [] ->
    l_gmac L (secret_key L ho ss n) nonce data = Ok v -> dh_value L (Alg "id_DHBasedMac" p) ss data v
| DV_kmac : forall p owf mac ho h ss data v,
    seen (l_dec_dhbm L) p (PDhbm owf (Alg mac PAbsent)) (owf, Alg mac PAbsent) -> In (a_oid owf, ho) sha1_sha2 ->
    In (mac, h) kmacs -> ss <> [] -> l_kmac L h (secret_key L ho ss 32) data = Ok v ->
    dh_value L (Alg "id_DHBasedMac" p) ss data v.

(** ** Signature algorithms *)

Definition rsa_hashes : list (oid * string) :=
  [("sha1WithRSAEncryption", "sha1"); ("sha224WithRSAEncryption", "sha224"); ("sha256WithRSAEncryption", "sha256");
   ("sha384WithRSAEncryption", "sha384"); ("sha512WithRSAEncryption", "sha512");
   ("id_rsassa_pkcs1_v1_5_with_sha3_224", "sha3_224"); ("id_rsassa_pkcs1_v1_5_with_sha3_256", "sha3_256");
   ("id_rsassa_pkcs1_v1_5_with_sha3_384", "sha3_384"); ("id_rsassa_pkcs1_v1_5_with_sha3_512", "sha3_512")].
Definition ecdsa_hashes : list (oid * string) :=
  [("ecdsa_with_SHA224", "sha224"); ("ecdsa_with_SHA256", "sha256"); ("ecdsa_with_SHA384", "sha384");
   ("ecdsa_with_SHA512", "sha512"); ("id_ecdsa_with_shake128", "shake128"); ("id_ecdsa_with_shake256", "shake256");
   ("id_ecdsa_with_sha3_224", "sha3_224"); ("id_ecdsa_with_sha3_256", "sha3_256");
   ("id_ecdsa_with_sha3_384", "sha3_384"); ("id_ecdsa_with_sha3_512", "sha3_512")].
Definition pss_shakes : list (oid * (string * Z)) :=
  [("id_RSASSA_PSS_SHAKE128", ("shake128", 32)); ("id_RSASSA_PSS_SHAKE256", ("shake256", 64))].
Definition pq_key_names : list string := (ML_DSA_NAMES ++ SLH_DSA_NAMES ++ FALCON_NAMES)%list.
Definition pq_prehash : list (string * string) :=
  [("ml-dsa-44", "sha512"); ("ml-dsa-65", "sha512"); ("ml-dsa-87", "sha512"); ("slh-dsa-sha2-128s", "sha256");
   ("slh-dsa-sha2-128f", "sha256"); ("slh-dsa-sha2-192s", "sha512"); ("slh-dsa-sha2-192f", "sha512");
   ("slh-dsa-sha2-256s", "sha512"); ("slh-dsa-sha2-256f", "sha512"); ("slh-dsa-shake-128s", "shake128");
   ("slh-dsa-shake-128f", "shake128"); ("slh-dsa-shake-192s", "shake256"); ("slh-dsa-shake-192f", "shake256");
   ("slh-dsa-shake-256s", "shake256"); ("slh-dsa-shake-256f", "shake256")].
Definition stateful_oids : list oid := ["pq:xmss"; "pq:xmssmt"; "pq:hss"].
(** The keys the libraries make: a post-quantum key has one of the names, a stateful key one of the identifiers. *)
Definition wf_kind (k : kkind) : Prop :=
  match k with KPq n => In n pq_key_names | KStf o => In o stateful_oids | _ => True end.
Definition is_null (p : params) : Prop := p = PNull \/ p = PRaw [5; 0] \/ p = POctets [5; 0].
(** The algorithm identifier fits the key, and names the scheme. *)
Inductive sig_scheme (L : lib) : algid -> kkind -> scheme -> Prop :=
| SG_rsa : forall o p h, In (o, h) rsa_hashes -> is_null p -> sig_scheme L (Alg o p) KRsa (SPkcs1 h)
| SG_ecdsa : forall o h, In (o, h) ecdsa_hashes -> sig_scheme L (Alg o PAbsent) KEc (SEcdsa h)
| SG_ed25519 : sig_scheme L (Alg "id_Ed25519" PAbsent) KEd25519 SEd
| SG_ed448 : sig_scheme L (Alg "id_Ed448" PAbsent) KEd448 SEd
| SG_pss : forall p ha mgf ma n h,
    seen (l_dec_pss L) p (PPss ha mgf n) (ha, mgf, n) -> In (a_oid ha, h) owf_hashes -> a_oid mgf = "id_mgf1" ->
    seen (l_dec_alg L) (a_params mgf) (PAlg ma) ma -> a_oid ma = a_oid ha ->
    sig_scheme L (Alg "id_RSASSA_PSS" p) KRsa (SPss h (if n =? 0 then digest_size h else n))
| SG_shake : forall o h n, In (o, (h, n)) pss_shakes -> sig_scheme L (Alg o PAbsent) KRsa (SPssShake h n)
| SG_pq : forall n, In n pq_key_names -> sig_scheme L (Alg (pq n) PAbsent) (KPq n) (SPq None)
| SG_pq_pre : forall n h, In (n, h) pq_prehash -> sig_scheme L (Alg (pq (n ++ "-" ++ h)) PAbsent) (KPq n) (SPq (Some h))
| SG_stf : forall o, In o stateful_oids -> sig_scheme L (Alg o PAbsent) (KStf o) SStf
| SG_comp : forall n x y, In n (List.map fst COMPOSITE_SIG_HASH) ->
    sig_scheme L (Alg (comp n) PAbsent) (KComp x y) (SComp (endswith "-pss" n)).
(** The signature algorithms of the lightweight profile. *)
Definition lw_sig : list oid :=
  ["id_Ed25519"; "id_Ed448"; "sha224WithRSAEncryption"; "sha256WithRSAEncryption"; "sha384WithRSAEncryption";
   "sha512WithRSAEncryption"; "id_RSASSA_PSS"; "id_RSASSA_PSS_SHAKE128"; "id_RSASSA_PSS_SHAKE256"; "ecdsa_with_SHA224";
   "ecdsa_with_SHA256"; "ecdsa_with_SHA384"; "ecdsa_with_SHA512"; "id_ecdsa_with_shake128"; "id_ecdsa_with_shake256"].
(** The keys whose protection can be verified. *)
Definition single_key (k : kkind) : bool :=
  match k with KRsa | KEc | KEd25519 | KEd448 | KPq _ | KStf _ => true | _ => false end.
(** The identifiers of the protection algorithms that use a secret. *)
Definition secret_oids : list oid := ("id_DHBasedMac" :: "id_KemBasedMac" :: mac_oids)%list.
Definition is_comp (k : kkind) : bool := match k with KComp _ _ => true | _ => false end.

(** ** Key derivation *)

(** The number of digests of [d] bytes needed for [want] bytes. *)
Definition blocks_for (want d : Z) : nat := Z.to_nat ((want + d - 1) / d).
(** The number of rounds added to a base key of [n] bytes. *)
Definition rounds_for (want n : Z) : nat := Z.to_nat ((want + n - 1) / n - 1).
(** The shared secret: the one given, or the result of the key agreement. *)
Definition dh_secret (L : lib) (k : option key) (p : option peer) (certs : list cert) (ss : option bytes) : result bytes :=
  match given ss with Some s => Ok s | None => dh_exchange L k p certs end.

(** ** The KEM-based MAC *)

Definition hkdfs : list (oid * string) :=
  [("id_alg_hkdf_with_sha256", "sha256"); ("id_alg_hkdf_with_sha384", "sha384"); ("id_alg_hkdf_with_sha512", "sha512")].
(** [mk] is the key of [len] bytes derived from the shared secret [ss] and the other information [oi]. *)
Inductive kem_key (L : lib) : algid -> bytes -> Z -> bytes -> bytes -> Prop :=
| KK_hkdf : forall o p h ss len oi mk, In (o, h) hkdfs -> l_hkdf L h ss oi len = Ok mk -> kem_key L (Alg o p) ss len oi mk
| KK_kdf2 : forall p sa h d ss len oi,
    seen_lax (l_dec_alg L) p (PAlg sa) sa -> In (a_oid sa, h) owf_hashes -> lookup h ALLOWED_HASH_TYPES = Some d ->
    len <= 4294967295 * d ->
    kem_key L (Alg "id_kdf_kdf2" p) ss len oi (firstn (Z.to_nat len) (kdf_stream L h true ss oi (blocks_for len d)))
| KK_kdf3 : forall p sa h d ss len oi,
    seen_lax (l_dec_alg L) p (PAlg sa) sa -> In (a_oid sa, h) owf_hashes -> lookup h ALLOWED_HASH_TYPES = Some d ->
    len <= 4294967295 * d ->
    kem_key L (Alg "id_kdf_kdf3" p) ss len oi (firstn (Z.to_nat len) (kdf_stream L h false ss oi (blocks_for len d)))
| KK_pbkdf2 : forall salt iter n prf h ss len oi mk, In (a_oid prf, h) hmacs -> l_pbkdf2 L h ss salt iter n = Ok mk ->
    kem_key L (Alg "id_PBKDF2" (PPbkdf2 (SaltSpec salt) iter (Some n) prf)) ss len oi mk.
(** The context of the parameters, when it is not empty. *)
Definition kem_context (ctx : option bytes) : option bytes := match ctx with Some [] => None | x => x end.
(** [v] is the KEM-based MAC of [data] under the shared secret [ss] in the transaction [tx]. *)
Inductive kem_value (L : lib) : algid -> bytes -> bytes -> bytes -> bytes -> Prop :=
| KV_hmac : forall p kdf ctx len mac h ss tx data mk,
    seen (l_dec_kem L) p (PKem kdf ctx len mac) (kdf, ctx, len, mac) -> In (a_oid mac, h) hmacs ->
    kem_key L kdf ss len (l_other_info L tx (kem_context ctx)) mk ->
    kem_value L (Alg "id_KemBasedMac" p) ss tx data (l_hmac L h mk data)
| KV_kmac : forall p kdf ctx len mac h ss tx data mk v,
    seen (l_dec_kem L) p (PKem kdf ctx len (Alg mac PAbsent)) (kdf, ctx, len, Alg mac PAbsent) -> In (mac, h) kmacs ->
    kem_key L kdf ss len (l_other_info L tx (kem_context ctx)) mk -> l_kmac L h mk data = Ok v ->
    kem_value L (Alg "id_KemBasedMac" p) ss tx data v.
(** The secret a verifier uses: the one it is given, or the decapsulated first ciphertext of the header. *)
Definition is_kem_key (k : key) : Prop := exists o, k_kind k = KKem o.
Inductive kem_secret (L : lib) (m : msg) (w : vopts) : bytes -> Prop :=
| KS_given : forall ss, v_ss w = Some ss -> (forall k, v_key w = Some k -> is_kem_key k) -> kem_secret L m w ss
| KS_decaps : forall k o before i after b ka ct ss, v_ss w = None -> v_key w = Some k -> k_kind k = KKem o ->
    h_info (m_header m) = (before ++ i :: after)%list -> (forall j, In j before -> i_type j <> "id_it_KemCiphertextInfo") ->
    i_type i = "id_it_KemCiphertextInfo" -> (i_val i = PRaw b \/ i_val i = POctets b) ->
    l_dec_ct L b = Some ((ka, ct), []) -> a_oid ka = o -> l_decaps L k ct = Ok ss -> kem_secret L m w ss.

(** ** Kinds of protection *)

Definition trad_sigs : list oid :=
  (List.map fst rsa_hashes ++ List.map fst ecdsa_hashes ++ List.map fst pss_shakes
   ++ ["id_RSASSA_PSS"; "id_Ed25519"; "id_Ed448"])%list.
Definition pq_sigs : list oid := List.map pq (pq_key_names ++ List.map (fun p => (fst p ++ "-" ++ snd p)%string) pq_prehash)%list.
Definition composites : list oid := List.map (fun p => comp (fst p)) COMPOSITE_SIG_HASH.
(** The kind of protection an identifier stands for. *)
Inductive oid_kind : oid -> ptype -> Prop :=
| OK_kem : oid_kind "id_KemBasedMac" T_KEM
| OK_dh : oid_kind "id_DHBasedMac" T_DH
| OK_mac : forall o, In o mac_oids -> oid_kind o T_MAC
| OK_sig : forall o, In o trad_sigs -> oid_kind o T_SIG
| OK_pq : forall o, In o pq_sigs -> oid_kind o T_PQ
| OK_stateful : forall o, In o stateful_oids -> oid_kind o T_STATEFUL
| OK_comp : forall o, In o composites -> oid_kind o T_COMP.
(** What the lightweight profile allows. *)
Definition lw_allowed (o : oid) (t : ptype) : Prop :=
  match t with
  | T_KEM | T_DH => True
  | T_MAC => o = "id_PBMAC1" \/ o = "id_PasswordBasedMac"
  | T_SIG => In o lw_sig
  | T_PQ | T_COMP | T_STATEFUL => False
  end.
