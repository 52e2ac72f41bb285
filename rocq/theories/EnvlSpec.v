(** Vocabulary of the properties of EnvelopedData: when a recipient information yields a key, and the laws of the
    libraries. Nothing here computes. *)
From Coq Require Import String.
From Verif Require Import Prelude HdrModel EnvlModel.
Open Scope string_scope.
Open Scope Z_scope.
Open Scope list_scope.

(** The size of the key of an algorithm: AES-CBC, AES key wrap. *)
Inductive cbc_size : oid -> Z -> Prop :=
| cbc_16 : cbc_size "2.16.840.1.101.3.4.1.2" 16
| cbc_24 : cbc_size "2.16.840.1.101.3.4.1.22" 24
| cbc_32 : cbc_size "2.16.840.1.101.3.4.1.42" 32.
Inductive wrap_size : oid -> Z -> Prop :=
| wrap_16 : wrap_size "2.16.840.1.101.3.4.1.5" 16
| wrap_24 : wrap_size "2.16.840.1.101.3.4.1.25" 24
| wrap_32 : wrap_size "2.16.840.1.101.3.4.1.45" 32.

(** The content decrypts to `d` under the key. *)
Definition content_opens (L : lib) (e : eci) (cek : bytes) (raw : bool) (d : bytes) : Prop :=
  e_type e = (if raw then DATA else SIGNED)
  /\ cbc_size (g_oid (e_alg e)) (Z.of_nat (List.length cek))
  /\ exists p iv c, g_par (e_alg e) = Some p /\ l_ivdec L p = Some (iv, []) /\ List.length iv = 16%nat
                    /\ e_data e = Some c /\ l_uncbc L cek iv c = Ok d.

(** RFC 9483, 4.1.6: a certificate with a subject key identifier is named by it, any other by issuer and serial number. *)
Definition names (r : rid) (c : cert) : Prop :=
  r = match c_ski c with Some s => RidSki s | None => RidIsn (c_issuer c) (c_serial c) end.
Definition originates (o : orig) (c : cert) : Prop :=
  o = match c_ski c with Some s => OrigSki s | None => OrigIsn (c_issuer c) (c_serial c) end.

(** PBKDF2 with the given parameters. *)
Definition pbkdf2_gives (L : lib) (salt : bytes) (iter len : Z) (prf : oid) (pw k : bytes) : Prop :=
  exists h, l_prf L prf = Ok (Some h) /\ l_pbkdf2 L h salt iter len pw = Ok k.

(** A password recipient yields the key: version 3, PBKDF2 with an own salt, an AES key wrap without parameters of the
    same size. *)
Definition pwri_yields (L : lib) (r : pwri) (prot_salt pw cek : bytes) : Prop :=
  exists a par salt iter len prf w key k,
    pw_version r = Some 3 /\ pw_kdf r = Some a /\ g_oid a = "1.2.840.113549.1.5.12" /\ g_par a = Some par
    /\ l_pbkdec L par = Some ({| k_salt := Some salt; k_iter := iter; k_len := Some len; k_prf := prf |}, [])
    /\ salt <> prot_salt
    /\ pw_wrap r = Some w /\ g_par w = None /\ wrap_size (g_oid w) len
    /\ pw_key r = Some key /\ pbkdf2_gives L salt iter len prf pw k /\ l_unwrap L k key = Ok cek.

(** The salt of the protection: the given one, or the one of the message. *)
Definition protection_salt (L : lib) (m : option msg) (salt : option bytes) (s : bytes) : Prop :=
  match salt with
  | Some x => x = s
  | None => exists m' a, m = Some m' /\ n_prot m' = Some a /\ l_salt L a = Ok s
  end.

(** A key transport recipient yields the key. *)
Definition ktri_padding (L : lib) (a : alg) (p : padding) : Prop :=
  (g_oid a = "1.2.840.113549.1.1.1" /\ (g_par a = None \/ g_par a = Some [5; 0]) /\ p = Pkcs1)
  \/ (g_oid a = "1.2.840.113549.1.1.7" /\ exists par o h m g, g_par a = Some par /\ l_oaepdec L par = Some (o, [])
      /\ l_hash L (o_hash o) = Ok (Some h) /\ l_oiddec L (o_mgf o) = Some (m, []) /\ l_hash L m = Ok (Some g)
      /\ o_src o = false /\ p = OaepPad h g).
Definition ktri_yields (L : lib) (r : ktri) (c : option cert) (pop : bool) (k : priv) (cek : bytes) : Prop :=
  kt_version r = 2
  /\ (pop = true \/ exists c' i, c = Some c' /\ kt_rid r = Some i /\ names i c')
  /\ s_kind k = KRsa
  /\ exists a p e, kt_alg r = Some a /\ kt_key r = Some e /\ ktri_padding L a p /\ l_unrsa L k p e = Ok cek.

(** The key of an elliptic curve key agreement: the X9.63 derivation over the shared information. *)
Definition ec_kek (L : lib) (h : string) (z : bytes) (w : oid) (ukm : option bytes) (kek : bytes) : Prop :=
  exists n, wrap_size w n /\ l_x963 L h true z (l_shared L w (8 * n) ukm) n = Ok kek.

(** The schemes of RFC 9481, 4.1: hash function and whether the cofactor is used. *)
Inductive dh_scheme : oid -> string -> bool -> Prop :=
| dh_std224 : dh_scheme "1.3.132.1.11.0" "sha224" false
| dh_std256 : dh_scheme "1.3.132.1.11.1" "sha256" false
| dh_std384 : dh_scheme "1.3.132.1.11.2" "sha384" false
| dh_std512 : dh_scheme "1.3.132.1.11.3" "sha512" false
| dh_cof224 : dh_scheme "1.3.132.1.14.0" "sha224" true
| dh_cof256 : dh_scheme "1.3.132.1.14.1" "sha256" true
| dh_cof384 : dh_scheme "1.3.132.1.14.2" "sha384" true
| dh_cof512 : dh_scheme "1.3.132.1.14.3" "sha512" true
| dh_x25519 : dh_scheme "1.3.101.110" "sha256" false
| dh_x448 : dh_scheme "1.3.101.111" "sha256" false
| dh_esdh : dh_scheme "1.2.840.113549.1.9.16.3.5" "sha256" false.
Inductive mqv_scheme : oid -> string -> Prop :=
| mqv_224 : mqv_scheme "1.3.132.1.15.0" "sha224"
| mqv_256 : mqv_scheme "1.3.132.1.15.1" "sha256"
| mqv_384 : mqv_scheme "1.3.132.1.15.2" "sha384"
| mqv_512 : mqv_scheme "1.3.132.1.15.3" "sha512".

(** The key encryption key of a key agreement with the holder of a certificate. *)
Definition agreed (L : lib) (k : priv) (peer : cert) (a : alg) (ukm : option bytes) (kek : bytes) : Prop :=
  exists par w p, g_par a = Some par /\ l_algdec L par = Some (w, []) /\ l_load L (c_spki peer) = Ok p
  /\ ((exists h cof z, dh_scheme (g_oid a) h cof /\ ecdh_kind (p_kind p) = true /\ l_ecdh L k p cof = Ok z
         /\ ec_kek L h z (g_oid w) ukm kek)
      \/ (exists h u m e, mqv_scheme (g_oid a) h /\ s_kind k = KEc /\ p_kind p = KEc
            /\ ukm = Some u /\ l_mqvdec L u = Some (m, []) /\ m_alg m = EC_PUBLIC
            /\ l_load L (m_key m) = Ok e /\ p_kind e = KEc
            /\ ec_kek L h (l_mqv_recv L k p e) (g_oid w) (m_added m) kek)).

(** A key agreement recipient yields the key. *)
Definition kari_yields (L : lib) (r : kari) (c : option cert) (pop : bool) (k : priv) (peer : cert) (cek : bytes) : Prop :=
  exists o a x e kek, ka_version r = Some 3 /\ ka_orig r = Some o /\ ka_alg r = Some a
    /\ ka_keys r = [{| re_rid := x; re_key := e |}]
    /\ (pop = true \/ exists c', c = Some c' /\ originates o c' /\ names x c')
    /\ agreed L k peer a (ka_ukm r) kek /\ l_unwrap L kek e = Ok cek.

(** The key derivation of a KEM recipient. *)
Inductive hkdf_of : oid -> string -> Prop :=
| hkdf_256 : hkdf_of "1.2.840.113549.1.9.16.3.28" "sha256"
| hkdf_384 : hkdf_of "1.2.840.113549.1.9.16.3.29" "sha384"
| hkdf_512 : hkdf_of "1.2.840.113549.1.9.16.3.30" "sha512".
Definition kdf_gives (L : lib) (f : alg) (ss info : bytes) (n : Z) (kek : bytes) : Prop :=
  (exists h, hkdf_of (g_oid f) h /\ kek = l_hkdf L h ss info n)
  \/ (exists v2 par s rest h, g_oid f = (if v2 : bool then KDF2 else KDF3) /\ g_par f = Some par
        /\ l_algdec L par = Some (s, rest) /\ l_hash L (g_oid s) = Ok (Some h) /\ l_x963 L h v2 ss info n = Ok kek).

(** A KEM recipient yields the key. *)
Definition kemri_yields (L : lib) (r : kemri) (c : option cert) (pop sun : bool) (k : priv) (cek : bytes) : Prop :=
  exists i o ct f n w e ss kek,
    km_version r = Some 0 /\ km_rid r = Some i
    /\ (pop = true \/ exists c', c = Some c' /\ names i c')
    /\ km_kem r = Some o /\ l_kem L o = true
    /\ (exists y, (s_kind k = KKem y \/ s_kind k = KRsa /\ y = KEM_RSA) /\ (sun = true \/ y = o))
    /\ km_ct r = Some ct /\ km_kdf r = Some f /\ km_kek r = Some n /\ km_wrap r = Some w /\ wrap_size (g_oid w) n
    /\ km_key r = Some e /\ l_decaps L k ct n = Ok ss
    /\ kdf_gives L f ss (l_other L w n (km_ukm r)) n kek /\ l_unwrap L kek e = Ok cek.

(** The recipient at a position of a list of the expected size. *)
Definition recipient (v : env) (size index : nat) (r : recip) : Prop :=
  List.length (v_recips v) = size /\ nth_error (v_recips v) index = Some r.

(** The peer of a key agreement: the given certificate; for an X25519 or X448 key without one, the first of the first
    two extra certificates with such a key; otherwise the certificate of the protection. *)
Definition x_cert (L : lib) (m : msg) (c : cert) : Prop :=
  exists c0 l p0, n_extra m = c0 :: l /\ l_load L (c_spki c0) = Ok p0
  /\ ((is_x (p_kind p0) = true /\ c = c0)
      \/ (is_x (p_kind p0) = false /\ exists l' p, l = c :: l' /\ l_load L (c_spki c) = Ok p /\ is_x (p_kind p) = true)).
Definition peer_of (L : lib) (g : given) (k : priv) (peer : cert) : Prop :=
  match i_kari g with
  | Some c => peer = c
  | None => if is_x (s_kind k) then exists m, i_msg g = Some m /\ x_cert L m peer else i_cert g = Some peer
  end.
(** An RSA key has no peer; with another key it must be found even for key transport. *)

(** The key of the recipient `r`, whichever kind it is, without an expected type. *)
Definition yields (L : lib) (g : given) (r : recip) (cek : bytes) : Prop :=
  match r with
  | Pwri r => exists pw s, i_pw g = Some pw /\ protection_salt L (i_msg g) (i_salt g) s /\ pwri_yields L r s pw cek
  | Ktri r => exists k, i_key g = Some k /\ ktri_yields L r (i_cert g) (i_pop g) k cek
  | Kari r => exists k peer, i_key g = Some k /\ ecdh_kind (s_kind k) = true /\ peer_of L g k peer
                             /\ kari_yields L r (i_cert g) (i_pop g) k peer cek
  | Ori t x => exists k r, i_key g = Some k /\ t = ORI_KEM /\ l_kemdec L x = Some (r, [])
                           /\ kemri_yields L r (i_cert g) (i_pop g) false k cek
  | Kekri => False
  end.

(** What validate_enveloped_data expects of the recipient at the given position. *)
Definition expects (t : expected) (r : recip) : Prop :=
  match t with Any => True | AKemri => name_of r = NOri | AName n => name_of r = n end.
(** The sizes of AES keys. *)
Definition aes_key (k : bytes) : Prop := List.length k = 16%nat \/ List.length k = 24%nat \/ List.length k = 32%nat.
(** When the recipient reads the scheme the sender used: no own identifier, and the keys of Curve25519 and Curve448 only with
    the hash function the recipient assumes. *)
Definition plain_scheme (k : kind) (o : kari_opts) : Prop :=
  ko_oid o = None /\ (is_x k = true -> ko_hash o = "sha256" /\ ko_cof o = false).
(** A length that is given, and not zero, must be the one of the key wrap. *)
Definition kek_fits (o : kem_opts) : Prop :=
  match eo_kek o with
  | None => True
  | Some n => n = 0 \/ (eo_wrap o = "aes128_wrap" /\ n = 16) \/ (eo_wrap o = "aes192_wrap" /\ n = 24)
              \/ (eo_wrap o = "aes256_wrap" /\ n = 32)
  end.

(** ** Laws of the libraries *)
Record laws (L : lib) : Prop := {
  w_wrap : forall k m c, l_wrap L k m = Ok c -> l_unwrap L k c = Ok m;
  w_cbc : forall k iv m c, l_cbc L k iv m = Ok c -> l_uncbc L k iv c = Ok m;
  w_rsa : forall k p r m c, l_rsa L (public_key k) p r m = Ok c -> l_unrsa L k p c = Ok m;
  w_ecdh : forall a b cof, l_ecdh L a (public_key b) cof = l_ecdh L b (public_key a) cof;
  w_mqv : forall a e b, l_mqv_send L a e (public_key b) = l_mqv_recv L b (public_key a) (public_key e);
  w_kem : forall k r ss ct n, l_encaps L (public_key k) r = Ok (ss, ct) -> l_decaps L k ct n = Ok ss;
  w_known : forall k r ss ct o, l_encaps L (public_key k) r = Ok (ss, ct) -> s_kind k = KKem o -> l_kem L o = true;
  w_iv : forall x, l_ivdec L (l_ivenc L x) = Some (x, []);
  w_pbk : forall x, l_pbkdec L (l_pbkenc L x) = Some (x, []);
  w_oaep : forall x, l_oaepdec L (l_oaepenc L x) = Some (x, []);
  w_oid : forall x, l_oiddec L (l_oidenc L x) = Some (x, []);
  w_alg : forall x, l_algdec L (l_algenc L x) = Some (x, []);
  w_mqvu : forall x, l_mqvdec L (l_mqvenc L x) = Some (x, []);
  w_kemri : forall x, l_kemdec L (l_kemenc L x) = Some (x, []);
  w_spki : forall p, l_load L (l_spki L p) = Ok p
}.

(** ** The form of what is built *)

(** How a recipient is named: by what is given, else by issuer and serial number if these are given, else by the subject key
    identifier, given or of the certificate, else by the issuer and serial number of the certificate. *)
Inductive named (c : option cert) (isn : option (bytes * Z)) (ski : option bytes) : rid -> Prop :=
| named_isn : forall i n, isn = Some (i, n) -> named c isn ski (RidIsn i n)
| named_ski : forall s, isn = None -> ski = Some s -> named c isn ski (RidSki s)
| named_cert : forall c' s, isn = None -> ski = None -> c = Some c' -> c_ski c' = Some s -> named c isn ski (RidSki s)
| named_serial : forall c', isn = None -> ski = None -> c = Some c' -> c_ski c' = None -> named c isn ski (RidIsn (c_issuer c') (c_serial c')).
(** The padding asked for: OAEP with SHA-384, and SHA-256 for the mask, or PKCS #1 v1.5. *)
Definition transport_alg (L : lib) (use_oaep : bool) (a : alg) : Prop :=
  if use_oaep then
    a = {| g_oid := "1.2.840.113549.1.1.7";
           g_par := Some (l_oaepenc L {| o_hash := "2.16.840.1.101.3.4.2.2"; o_mgf := l_oidenc L "2.16.840.1.101.3.4.2.1"; o_src := false |}) |}
  else a = {| g_oid := "1.2.840.113549.1.1.1"; g_par := None |}.
(** The scheme of a key agreement: the one given, that of the curve of the key, else by hash function and cofactor. *)
Definition agreement_oid (p : pub) (o : kari_opts) (x : oid) : Prop :=
  match ko_oid o with
  | Some y => x = y
  | None => match p_kind p with
            | KX448 => x = "1.3.101.111"
            | KX25519 => x = "1.3.101.110"
            | _ => if ko_mqv o then mqv_scheme x (ko_hash o)
                   else dh_scheme x (ko_hash o) (ko_cof o) /\ ~ In x ["1.3.101.110"; "1.3.101.111"; "1.2.840.113549.1.9.16.3.5"]
            end
  end.
(** The key derivation function asked for. *)
Inductive kdf_asked (L : lib) (o : kem_opts) : alg -> Prop :=
| asked_hkdf256 : eo_kdf o = "hkdf" -> eo_hash o = "sha256" -> kdf_asked L o {| g_oid := "1.2.840.113549.1.9.16.3.28"; g_par := None |}
| asked_hkdf384 : eo_kdf o = "hkdf" -> eo_hash o = "sha384" -> kdf_asked L o {| g_oid := "1.2.840.113549.1.9.16.3.29"; g_par := None |}
| asked_hkdf512 : eo_kdf o = "hkdf" -> eo_hash o = "sha512" -> kdf_asked L o {| g_oid := "1.2.840.113549.1.9.16.3.30"; g_par := None |}
| asked_hkdf3 : forall h x, eo_kdf o = "hkdf" -> eo_hash o = h ->
    In (h, x) [("sha3-224", "1.2.840.113549.1.9.16.3.32"); ("sha3-256", "1.2.840.113549.1.9.16.3.33");
               ("sha3-384", "1.2.840.113549.1.9.16.3.34"); ("sha3-512", "1.2.840.113549.1.9.16.3.35")] ->
    kdf_asked L o {| g_oid := x; g_par := None |}
| asked_kdf2 : forall s, eo_kdf o = "kdf2" -> l_sha L (eo_hash o) = Ok s ->
    kdf_asked L o {| g_oid := "1.3.133.16.840.9.44.1.1"; g_par := Some (l_algenc L {| g_oid := s; g_par := None |}) |}
| asked_kdf3 : forall s, eo_kdf o <> "kdf2" -> substring 0 3 (eo_kdf o) = "kdf" -> l_sha L (eo_hash o) = Ok s ->
    kdf_asked L o {| g_oid := "1.3.133.16.840.9.44.1.2"; g_par := Some (l_algenc L {| g_oid := s; g_par := None |}) |}
| asked_pbkdf2 : forall prf, substring 0 6 (eo_kdf o) = "pbkdf2" -> l_hmac L (eo_hash o) = Ok prf ->
    kdf_asked L o {| g_oid := "1.2.840.113549.1.5.12";
                     g_par := Some (l_pbkenc L {| k_salt := Some (eo_salt o); k_iter := 100000; k_len := Some 32; k_prf := prf |}) |}.
