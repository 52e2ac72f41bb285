(** Model of message protection (resources/protectionutils.py, with the parts of resources/cryptoutils.py it calls).
    The cryptographic primitives and the ASN.1 codec are the fields of [lib]. *)
From Coq Require Import String Ascii.
From Verif Require Import Prelude PyStr CompLoadModel HdrModel ProtTab.
Open Scope string_scope.
Open Scope Z_scope.
Local Notation length := List.length.

(** ** Values *)

(** A Python [str] or [bytes]. A [str] is the sequence of bytes of its UTF-8 encoding. *)
Inductive sval := SvStr (s : string) | SvBytes (b : bytes).
Definition zcode (c : ascii) : Z := Z.of_N (code c).
Fixpoint raw_bytes (s : string) : bytes :=
  match s with EmptyString => [] | String c r => zcode c :: raw_bytes r end.
Definition hex_digit (c : ascii) : option Z :=
  let n := zcode c in
  if (48 <=? n) && (n <=? 57) then Some (n - 48)
  else if (65 <=? n) && (n <=? 70) then Some (n - 55)
  else if (97 <=? n) && (n <=? 102) then Some (n - 87)
  else None.
(** [bytes.fromhex]: two hexadecimal digits per byte, white space between bytes is skipped. *)
Fixpoint fromhex_aux (s : string) (hi : option Z) : result bytes :=
  match s with
  | EmptyString => match hi with None => Ok [] | Some _ => Err EValueError end
  | String c r =>
      match hi with
      | None =>
          if ((9 <=? zcode c) && (zcode c <=? 13)) || (zcode c =? 32) then fromhex_aux r None
          else match hex_digit c with Some d => fromhex_aux r (Some d) | None => Err EValueError end
      | Some h =>
          match hex_digit c with
          | Some d => let! t := fromhex_aux r None in Ok (16 * h + d :: t)
          | None => Err EValueError
          end
      end
  end.
(** Models resources/convertutils.py 237-254 (str_to_bytes). *)
Definition str_to_bytes (v : sval) : result bytes :=
  match v with
  | SvBytes b => Ok b
  | SvStr (String "0" (String "x" r)) => fromhex_aux r None
  | SvStr s => Ok (raw_bytes s)
  end.
(** [bool(v)]. *)
Definition truthy (v : sval) : bool :=
  match v with SvStr EmptyString => false | SvBytes [] => false | _ => true end.

(** The class of a key (pq_logic and cryptography classes), with what the code asks of it: the name of a post-quantum
    key, the identifiers returned by [get_oid]. A private key and its public key are the same [key]. *)
Inductive kkind :=
| KRsa | KEc | KEd25519 | KEd448 | KDsa | KX25519 | KX448
| KPq (name : string)
| KStf (o : oid)
| KComp (plain pss : result oid)
| KKem (o : oid).
Record key := { k_kind : kkind; k_id : Z }.
(** What a signature is computed with: PKCS #1 v1.5, PSS (hash and salt length), PSS with SHAKE, ECDSA, EdDSA, DSA,
    a post-quantum signature (with its pre-hash), a stateful hash-based one, a composite one. *)
Inductive scheme :=
| SPkcs1 (h : string) | SPss (h : string) (salt : Z) | SPssShake (h : string) (salt : Z) | SEcdsa (h : string)
| SEd | SDsa (h : string) | SPq (h : option string) | SStf | SComp (pss : bool).
(** A certificate: its encoding, its public key if it loads, the signature algorithm, the subject key identifier, the
    subject, the subject in OpenSSL notation (UTF-8). *)
Record cert := { c_der : bytes; c_pub : result key; c_sig : oid; c_ski : option bytes; c_subject : bytes; c_name : bytes }.
Inductive peer := PeerKey (k : key) | PeerCert (c : cert).

(** An InfoTypeAndValue of generalInfo. *)
Record info := { i_type : string; i_val : params }.
(** A PKIHeader; [h_rest] stands for the fields protection does not look at. *)
Record header := { h_sender : option bytes; h_alg : option algid; h_kid : option bytes; h_tx : option bytes;
                   h_info : list info; h_rest : bytes }.
(** A PKIMessage; [m_certs] is empty when extraCerts is unset. *)
Record msg := { m_header : header; m_body : option bytes; m_prot : option bytes; m_certs : list cert }.

Definition set_alg (h : header) (a : algid) : header :=
  {| h_sender := h_sender h; h_alg := Some a; h_kid := h_kid h; h_tx := h_tx h; h_info := h_info h; h_rest := h_rest h |}.
Definition set_kid (h : header) (k : bytes) : header :=
  {| h_sender := h_sender h; h_alg := h_alg h; h_kid := Some k; h_tx := h_tx h; h_info := h_info h; h_rest := h_rest h |}.
Definition set_sender (h : header) (s : bytes) : header :=
  {| h_sender := Some s; h_alg := h_alg h; h_kid := h_kid h; h_tx := h_tx h; h_info := h_info h; h_rest := h_rest h |}.
Definition add_info (h : header) (i : info) : header :=
  {| h_sender := h_sender h; h_alg := h_alg h; h_kid := h_kid h; h_tx := h_tx h; h_info := (h_info h ++ [i])%list;
     h_rest := h_rest h |}.
Definition set_header (m : msg) (h : header) : msg :=
  {| m_header := h; m_body := m_body m; m_prot := m_prot m; m_certs := m_certs m |}.
Definition set_prot (m : msg) (p : bytes) : msg :=
  {| m_header := m_header m; m_body := m_body m; m_prot := Some p; m_certs := m_certs m |}.
Definition set_certs (m : msg) (l : list cert) : msg :=
  {| m_header := m_header m; m_body := m_body m; m_prot := m_prot m; m_certs := l |}.

(** ** The libraries *)

(** pyasn1's encoder and decoders ([l_tlv] tells that bytes are one complete DER value), the primitives of cryptography, pycryptodome and liboqs, and certificate building. *)
Record lib := {
  l_enc : params -> bytes;
  l_tlv : bytes -> bool;
  l_dec_pbmac1 : bytes -> option ((algid * algid) * bytes);
  l_dec_pbkdf2 : bytes -> option ((psalt * Z * option Z * algid) * bytes);
  l_dec_pbm : bytes -> option ((bytes * algid * Z * algid) * bytes);
  l_dec_gcm : bytes -> option (bytes * bytes);
  l_dec_dhbm : bytes -> option ((algid * algid) * bytes);
  l_dec_kem : bytes -> option ((algid * option bytes * Z * algid) * bytes);
  l_dec_pss : bytes -> option ((algid * algid * Z) * bytes);
  l_dec_alg : bytes -> option (algid * bytes);
  l_dec_ct : bytes -> option ((algid * bytes) * bytes);
  l_part : header -> bytes -> option bytes;
  l_other_info : bytes -> option bytes -> bytes;
  l_hash : string -> bytes -> bytes;
  l_hmac : string -> bytes -> bytes -> bytes;
  l_kmac : string -> bytes -> bytes -> result bytes;
  l_gmac : bytes -> bytes -> bytes -> result bytes;
  l_pbkdf2 : string -> bytes -> bytes -> Z -> Z -> result bytes;
  l_hkdf : string -> bytes -> bytes -> Z -> result bytes;
  l_ecdh : key -> key -> result bytes;
  l_encaps : key -> bytes -> result (bytes * bytes);
  l_decaps : key -> bytes -> result bytes;
  l_sign : (Z -> bytes) -> scheme -> key -> bytes -> result bytes;
  l_verify : scheme -> key -> bytes -> bytes -> result unit;
  l_self_cert : (Z -> bytes) -> key -> result cert;
  l_chain : cert -> result (list cert)
}.

(** What the recipient of an encoded structure sees: absent and undecoded parameters are unchanged, a structure has
    become its encoding. *)
Definition wire (L : lib) (p : params) : params :=
  match p with PAbsent => PAbsent | PRaw b => PRaw b | s => PRaw (l_enc L s) end.
Definition wire_alg (L : lib) (a : algid) : algid := Alg (a_oid a) (wire L (a_params a)).
Definition wire_info (L : lib) (i : info) : info := {| i_type := i_type i; i_val := wire L (i_val i) |}.
Definition wire_header (L : lib) (h : header) : header :=
  {| h_sender := h_sender h; h_alg := option_map (wire_alg L) (h_alg h); h_kid := h_kid h; h_tx := h_tx h;
     h_info := List.map (wire_info L) (h_info h); h_rest := h_rest h |}.
(** Encoding a message and decoding it at the other end. *)
Definition transport (L : lib) (m : msg) : msg := set_header m (wire_header L (m_header m)).

(** Structured parameters are used as they are, undecoded ones are decoded; [rest_err] is raised for a remainder
    ([None] when the remainder is ignored). Anything else is refused by the decoder. *)
Definition load {A} (sel : params -> option A) (dec : bytes -> option (A * bytes)) (rest_err : option exn) (p : params)
  : result A :=
  match sel p with
  | Some x => Ok x
  | None =>
      match p with
      | PRaw b | POctets b =>
          match dec b with
          | None => Err EPyAsn1
          | Some (x, []) => Ok x
          | Some (x, _ :: _) => match rest_err with Some e => Err e | None => Ok x end
          end
      | _ => Err EPyAsn1
      end
  end.
Definition sel_pbmac1 (p : params) := match p with PPbmac1 k m => Some (k, m) | _ => None end.
Definition sel_pbkdf2 (p : params) := match p with PPbkdf2 s i k a => Some (s, i, k, a) | _ => None end.
Definition sel_pbm (p : params) := match p with PPbm s o i m => Some (s, o, i, m) | _ => None end.
Definition sel_gcm (p : params) := match p with PGcm n => Some n | _ => None end.
Definition sel_dhbm (p : params) := match p with PDhbm o m => Some (o, m) | _ => None end.
Definition sel_kem (p : params) := match p with PKem k c n m => Some (k, c, n, m) | _ => None end.
Definition sel_pss (p : params) := match p with PPss h g n => Some (h, g, n) | _ => None end.
Definition sel_alg (p : params) := match p with PAlg a => Some a | _ => None end.

(** ** MACs *)

(** Models resources/protectionutils.py 2921-2956 (prepare_protected_part): the membership tests of 2944-2946 are on
    the names of the fields and never fail. *)
Definition protected_part (L : lib) (m : msg) : result bytes :=
  match m_body m with
  | None => Err EValueError
  | Some b => match l_part L (m_header m) b with Some d => Ok d | None => Err EValueError end
  end.
(** Models resources/oid_mapping.py 235-246 (compute_hash). *)
Definition compute_hash (L : lib) (name : string) (data : bytes) : result bytes :=
  let! h := hash_name_to_instance name in Ok (l_hash L h data).
(** Models resources/cryptoutils.py 227-244 (compute_hmac). *)
Definition compute_hmac (L : lib) (data k : bytes) (name : string) : result bytes :=
  let! h := hash_name_to_instance name in Ok (l_hmac L h k data).
(** Models resources/cryptoutils.py 268-321 (compute_kmac_from_alg_id, compute_kmac). *)
Definition compute_kmac_from_alg_id (L : lib) (a : algid) (data k : bytes) : result bytes :=
  let! _ := guard (is_absent (a_params a)) EValueError in
  if String.eqb (a_oid a) "id_KMACWithSHAKE128" then l_kmac L "shake128" k data
  else if String.eqb (a_oid a) "id_KMACWithSHAKE256" then l_kmac L "shake256" k data
  else Err EValueError.
(** Models resources/cryptoutils.py 324-351 (compute_pbkdf2_from_parameter): an absent keyLength or a salt that is not
    [specified] has no value to read. *)
Definition compute_pbkdf2_from_parameter (L : lib) (p : psalt * Z * option Z * algid) (k : bytes) : result bytes :=
  match p with
  | (salt, iter, klen, prf) =>
      let! s := match salt with SaltSpec b => Ok b | SaltOther _ => Err EPyAsn1 end in
      let! n := match klen with Some n => Ok n | None => Err EPyAsn1 end in
      let! h := get_hash_from_oid (a_oid prf) true in
      match h with
      | None => Err EBadAlg
      | Some name => let! inst := hash_name_to_instance name in l_pbkdf2 L inst k s iter n
      end
  end.
(** [for _ in range(n): x = compute_hash(name, x)]. *)
Fixpoint hash_times (L : lib) (n : nat) (name : string) (x : bytes) : result bytes :=
  match n with
  | O => Ok x
  | S n' => let! y := compute_hash L name x in hash_times L n' name y
  end.
(** Models resources/cryptoutils.py 400-430 (compute_password_based_mac). *)
Definition compute_password_based_mac (L : lib) (rnd : Z -> bytes) (data k : bytes) (iterations : Z) (salt : bytes)
    (owf mac : string) : result bytes :=
  let! x := hash_times L (Z.to_nat iterations) owf (k ++ or_bytes salt (rnd 16))%list in
  compute_hmac L data x mac.
(** The second part of the name of an HMAC identifier, [None] when it is not one. *)
Definition hmac_hash (o : oid) : option (result string) :=
  match lookup o HMAC_OID_2_NAME with Some n => Some (part1 n) | None => None end.
Definition is_sha2 (h : string) : bool := match rlookup h SHA2_OID_2_NAME with Some _ => true | None => false end.

(** Models resources/protectionutils.py 357-413 (_compute_pbmac1_from_param). [unsafe] is unsafe_decoding, [lw] is
    enforce_lwcmp. A prf without a hash name has no [split]: AttributeError. *)
Definition compute_pbmac1_from_param (L : lib) (p : params) (password data : bytes) (unsafe lw : bool) : result bytes :=
  let rest := if unsafe then None else Some EBadAsn1Data in
  let! (kdf, mac) := load sel_pbmac1 (l_dec_pbmac1 L) rest p in
  let! _ := guard (unsafe || String.eqb (a_oid kdf) "id_PBKDF2") EBadAlg in
  let! kp := load sel_pbkdf2 (l_dec_pbkdf2 L) rest (a_params kdf) in
  match hmac_hash (a_oid mac) with
  | None => Err EBadAlg
  | Some hr =>
      let! hash_alg := hr in
      let! pn := get_hash_from_oid (a_oid (snd kp)) false in
      let! ph := match pn with None => Err EAttribute | Some n => part1 n end in
      let! _ := guard (String.eqb ph hash_alg || negb lw) ELwCMPViolation in
      let! _ := guard (negb lw || is_sha2 hash_alg) EBadAlg in
      let! dk := compute_pbkdf2_from_parameter L kp password in
      compute_hmac L data dk hash_alg
  end.

(** [f"{i}".encode("ascii")] for i >= 0. *)
Fixpoint dec_digits (fuel : nat) (i : Z) (acc : bytes) : bytes :=
  match fuel with
  | O => acc
  | S f => if i <? 10 then 48 + i :: acc else dec_digits f (i / 10) (48 + i mod 10 :: acc)
  end.
Definition dec_ascii (i : Z) : bytes := dec_digits (S (Z.to_nat i)) i [].
(** [for i in range(i, i + n)] of resources/protectionutils.py 437-440. *)
Fixpoint derive_rounds (L : lib) (n : nat) (i : Z) (owf : string) (base : bytes) : result bytes :=
  match n with
  | O => Ok []
  | S n' =>
      let! t := compute_hash L owf (dec_ascii i ++ base)%list in
      let! r := derive_rounds L n' (i + 1) owf base in
      Ok (t ++ r)%list
  end.
(** Models resources/protectionutils.py 417-443 (dh_based_mac_derive_key). [math.ceil] of the quotient of two lengths
    is exact here: they are far below 2^53. *)
Definition dh_based_mac_derive_key (L : lib) (base : bytes) (want : Z) (owf : string) : result bytes :=
  let n := Z.of_nat (length base) in
  if want <=? n then Ok (firstn (Z.to_nat want) base)
  else if n =? 0 then Err EZeroDiv
  else
    let rounds := (want + n - 1) / n in
    let! ext := derive_rounds L (Z.to_nat (rounds - 1)) 1 owf base in
    Ok (firstn (Z.to_nat want) (base ++ ext)%list).
(** Models resources/protectionutils.py 446-458 (_get_aes_length). *)
Definition get_aes_length (name : string) : result Z :=
  if contains "128" name then Ok 16
  else if contains "192" name then Ok 24
  else if contains "256" name then Ok 32
  else Err EValueError.
(** Models resources/protectionutils.py 462-511 (compute_dh_based_mac_from_alg_id) with ignore_parameters left at
    False: then the parameters of owf are not looked at. *)
Definition compute_dh_based_mac_from_alg_id (L : lib) (ss : bytes) (a : algid) (data : bytes) : result bytes :=
  let! (owfa, mac) := load sel_dhbm (l_dec_dhbm L) (Some EBadAsn1Data) (a_params a) in
  match lookup (a_oid owfa) SHA_OID_2_NAME with
  | None => Err EKeyError
  | Some owf =>
      let! dk := compute_hash L owf ss in
      match hmac_hash (a_oid mac) with
      | Some hr => let! h := hr in compute_hmac L data dk h
      | None =>
          match lookup (a_oid mac) AES_GMAC_OID_2_NAME with
          | Some name =>
              let! n := get_aes_length name in
              let! k := dh_based_mac_derive_key L ss n owf in
              let! nonce := load sel_gcm (l_dec_gcm L) None (a_params mac) in
              l_gmac L k nonce data
          | None =>
              if has (a_oid mac) KMAC_OID_2_NAME
              then let! k := dh_based_mac_derive_key L ss 32 owf in compute_kmac_from_alg_id L mac data k
              else Err EBadAlg
          end
      end
  end.

(** Models resources/protectionutils.py 582-673 (_compute_symmetric_protection) after the protected part [data] is
    built, with unsafe_decoding False. *)
Definition symmetric_mac (L : lib) (rnd : Z -> bytes) (a : algid) (password data : bytes) (lw : bool) : result bytes :=
  let o := a_oid a in
  let p := a_params a in
  match hmac_hash o with
  | Some hr => let! h := hr in compute_hmac L data password h
  | None =>
      if has o KMAC_OID_2_NAME then compute_kmac_from_alg_id L a data password
      else if String.eqb o "id_PBMAC1" then compute_pbmac1_from_param L p password data false lw
      else if String.eqb o "id_PasswordBasedMac" then
        let! q := load sel_pbm (l_dec_pbm L) (Some EBadAsn1Data) p in
        match q with
        | (salt, owf, iterations, mac) =>
            let! oh := get_hash_from_oid (a_oid owf) false in
            match oh with
            | None => Err EBadAlg
            | Some hash_alg_owf =>
                match hmac_hash (a_oid mac) with
                | None => Err EBadAlg
                | Some hr =>
                    let! mac_hash_alg := hr in
                    let! _ := guard (String.eqb mac_hash_alg hash_alg_owf || negb lw) ELwCMPViolation in
                    let! _ := guard (negb lw || is_sha2 mac_hash_alg) EBadAlg in
                    compute_password_based_mac L rnd data password iterations salt hash_alg_owf mac_hash_alg
                end
            end
        end
      else if has o AES_GMAC_OID_2_NAME then
        let! nonce := load sel_gcm (l_dec_gcm L) (Some EBadAsn1Data) p in
        l_gmac L password nonce data
      else if String.eqb o "id_DHBasedMac" then compute_dh_based_mac_from_alg_id L password a data
      else Err EBadAlg
  end.
(** Models resources/protectionutils.py 582-673 (_compute_symmetric_protection). *)
Definition compute_symmetric_protection (L : lib) (rnd : Z -> bytes) (m : msg) (a : algid) (password : bytes) (lw : bool)
  : result bytes :=
  let! data := protected_part L m in symmetric_mac L rnd a password data lw.

(** Models resources/protectionutils.py 532-579 (compute_mac_from_alg_id). *)
Definition compute_mac_from_alg_id (L : lib) (rnd : Z -> bytes) (k : bytes) (a : algid) (data : bytes) : result bytes :=
  let o := a_oid a in
  let p := a_params a in
  match hmac_hash o with
  | Some hr => let! h := hr in compute_hmac L data k h
  | None =>
      if has o KMAC_OID_2_NAME then compute_kmac_from_alg_id L a data k
      else if String.eqb o "id_PBMAC1" then compute_pbmac1_from_param L p k data true false
      else if String.eqb o "id_PasswordBasedMac" then
        let! q := load sel_pbm (l_dec_pbm L) (Some EBadAsn1Data) p in
        match q with
        | (salt, _, iterations, mac) =>
            match hmac_hash (a_oid mac) with
            | None => Err EKeyError
            | Some hr => let! h := hr in compute_password_based_mac L rnd data k iterations salt h h
            end
        end
      else if has o AES_GMAC_OID_2_NAME then
        match p with PGcm nonce => l_gmac L k nonce data | _ => Err EPyAsn1 end
      else if String.eqb o "id_DHBasedMac" then compute_dh_based_mac_from_alg_id L k a data
      else Err EBadAlg
  end.

(** ** Key derivation and the KEM-based MAC *)

(** The 32-bit big-endian counter; [to_bytes] raises OverflowError above 2^32 - 1. *)
Definition counter_bytes (c : Z) : result bytes :=
  let! _ := guard (c <? 4294967296) EOverflow in
  Ok [c / 16777216; c / 65536 mod 256; c / 256 mod 256; c mod 256].
(** The loop of resources/cryptoutils.py 584-594. The fuel is the number of bytes still missing: every round adds at
    least one. *)
Fixpoint ansi_loop (L : lib) (fuel : nat) (h : string) (ss other : bytes) (v2 : bool) (want counter : Z) (acc : bytes)
  : result bytes :=
  if Z.of_nat (length acc) <? want then
    match fuel with
    | O => Ok acc
    | S f =>
        let! cb := counter_bytes counter in
        let blk := l_hash L h (if v2 then ss ++ cb ++ other else cb ++ ss ++ other)%list in
        ansi_loop L f h ss other v2 want (counter + 1) (acc ++ blk)%list
    end
  else Ok acc.
(** Models resources/cryptoutils.py 560-596 (compute_ansi_x9_63_kdf): a negative length cuts from the end of the empty
    result. *)
Definition compute_ansi_x9_63_kdf (L : lib) (ss : bytes) (want : Z) (other : bytes) (name : string) (v2 : bool)
  : result bytes :=
  let! h := hash_name_to_instance name in
  let! km := ansi_loop L (Z.to_nat want) h ss other v2 want 1 [] in
  Ok (firstn (Z.to_nat want) km).
(** Models resources/cryptoutils.py 600-617 (compute_hkdf) without a salt. *)
Definition compute_hkdf (L : lib) (name : string) (ss info : bytes) (want : Z) : result bytes :=
  let! h := hash_name_to_instance name in l_hkdf L h ss info want.
(** Models resources/protectionutils.py 2055-2104 (compute_kdf_from_alg_id). Undecoded PBKDF2 parameters are decoded as
    an AlgorithmIdentifier (2093): that fails, or yields a structure without a [prf] component. *)
Definition compute_kdf_from_alg_id (L : lib) (a : algid) (ss : bytes) (want : Z) (ukm : bytes) : result bytes :=
  let o := a_oid a in
  match lookup o HKDF_OID_2_NAME with
  | Some n => let! h := part1 n in compute_hkdf L h ss ukm want
  | None =>
      if str_mem o ["id_kdf_kdf2"; "id_kdf_kdf3"] then
        let! sa := load sel_alg (l_dec_alg L) None (a_params a) in
        let! h := get_hash_from_oid (a_oid sa) false in
        match h with
        | None => Err EBadAlg
        | Some n => compute_ansi_x9_63_kdf L ss want ukm n (String.eqb o "id_kdf_kdf2")
        end
      else if String.eqb o "id_PBKDF2" then
        match sel_pbkdf2 (a_params a) with
        | Some kp =>
            let! _ := guard (has (a_oid (snd kp)) HMAC_OID_2_NAME) EBadAlg in
            compute_pbkdf2_from_parameter L kp ss
        | None =>
            match a_params a with
            | PRaw b | POctets b => match l_dec_alg L b with None => Err EPyAsn1 | Some _ => Err EKeyError end
            | _ => Err EPyAsn1
            end
        end
      else Err EValueError
  end.
(** Models resources/protectionutils.py 2108-2161 (compute_kem_based_mac_from_alg_id). *)
Definition compute_kem_based_mac_from_alg_id (L : lib) (data : bytes) (a : algid) (ss tx : bytes) : result bytes :=
  let! q := match load sel_kem (l_dec_kem L) (Some EBadAsn1Data) (a_params a) with
            | Err EPyAsn1 => Err EBadAsn1Data
            | r => r
            end in
  match q with
  | (kdf, ctx, len, mac) =>
      let ukm := match ctx with None => [] | Some c => c end in
      let oi := l_other_info L tx (match ukm with [] => None | _ => Some ukm end) in
      let! mk := compute_kdf_from_alg_id L kdf ss len oi in
      match hmac_hash (a_oid mac) with
      | Some hr => let! h := hr in compute_hmac L data mk h
      | None => if has (a_oid mac) KMAC_OID_2_NAME then compute_kmac_from_alg_id L mac data mk else Err EValueError
      end
  end.

(** ** Signatures *)

(** Models resources/convertutils.py 26-31 and 66-71 (ensure_is_sign_key, ensure_is_verify_key). *)
Definition is_sign_kind (k : kkind) : bool := match k with KX25519 | KX448 | KKem _ => false | _ => true end.
(** Models pq_logic/keys/sig_keys.py 142-162, 469-486 and 830-843 (check_hash_alg of ML-DSA, SLH-DSA and Falcon keys).
    [inst] tells that the hash is given as an instance. *)
Definition check_hash_alg (name : string) (h : option string) (inst : bool) : option string :=
  match h with
  | None => None
  | Some x =>
      if str_mem name ML_DSA_NAMES then if String.eqb x "sha512" then Some "sha512" else None
      else if str_mem name SLH_DSA_NAMES then
        let n := if inst then instance_name x else x in
        if str_mem (name ++ "-" ++ n) SLH_DSA_PRE_HASH_NAMES then Some n else None
      else None
  end.
Definition opt_instance (h : option string) : result (option string) :=
  match h with None => Ok None | Some n => let! i := hash_name_to_instance n in Ok (Some i) end.
(** The scheme chosen by resources/cryptoutils.py 57-181 (sign_data, _sign_traditional_key, sign_data_rsa_pss without a
    salt length) and 184-223 (_sign_data_rsa_pss_shake). *)
Definition sign_scheme (k : kkind) (hash : option string) (pss : bool) : result scheme :=
  let! h := opt_instance hash in
  match k with
  | KComp _ _ => Ok (SComp pss)
  | KEd25519 | KEd448 => Ok SEd
  | KRsa =>
      match h with
      | None => Err EValueError
      | Some i =>
          if pss then
            if str_mem (instance_name i) ["shake128"; "shake256"] then Ok (SPssShake i (digest_size i))
            else let! i2 := hash_name_to_instance (instance_name i) in Ok (SPss i2 (digest_size i2))
          else Ok (SPkcs1 i)
      end
  | KEc => match h with None => Err EValueError | Some i => Ok (SEcdsa i) end
  | KDsa => match h with None => Err EValueError | Some i => Ok (SDsa i) end
  | KX25519 | KX448 => Err EValueError
  | KStf _ => Ok SStf
  | KPq n => Ok (SPq (check_hash_alg n h true))
  | KKem _ => Err EValueError
  end.
Definition sign_data (L : lib) (rnd : Z -> bytes) (k : key) (data : bytes) (hash : option string) (pss : bool)
  : result bytes :=
  let! s := sign_scheme (k_kind k) hash pss in l_sign L rnd s k data.
(** The scheme chosen by resources/cryptoutils.py 622-736 (verify_signature, _verify_trad_signature) without PSS. *)
Definition verify_scheme (k : kkind) (hash : option string) : result scheme :=
  match k with
  | KPq n => Ok (SPq (check_hash_alg n hash false))
  | KComp _ _ => Ok (SComp false)
  | KStf _ => Ok SStf
  | _ =>
      let! h := opt_instance hash in
      match k, h with
      | (KEd25519 | KEd448), _ => Ok SEd
      | _, None => Err EValueError
      | KRsa, Some i => Ok (SPkcs1 i)
      | KEc, Some i => Ok (SEcdsa i)
      | KDsa, Some i => Ok (SDsa i)
      | (KX25519 | KX448), Some _ => Err EValueError
      | _, Some _ => Err EBadAlg
      end
  end.
Definition verify_signature (L : lib) (k : key) (sig data : bytes) (hash : option string) : result unit :=
  let! s := verify_scheme (k_kind k) hash in l_verify L s k sig data.

(** resources/oid_mapping.py 50-67 (KEY_CLASS_MAPPING). *)
Definition key_type (k : kkind) : string :=
  match k with
  | KRsa => "rsa" | KEc => "ecdsa" | KEd25519 => "ed25519" | KEd448 => "ed448" | KDsa => "dsa" | KX25519 => "x25519"
  | KX448 => "x448" | _ => ""
  end.
(** Models resources/oid_mapping.py 69-102 (extra_data, get_signing_oid). The table of 230 (OID_HASH_NAME_2_OID) is
    built before the ML-DSA names are added. *)
Definition OID_HASH_MAP0 : table :=
  (RSA_OID_2_NAME ++ RSASSA_PSS_OID_2_NAME ++ ECDSA_SHA_OID_2_NAME ++ ECDSA_SHA3_OID_2_NAME ++ HMAC_OID_2_NAME
   ++ SHA_OID_2_NAME ++ SHA3_OID_2_NAME)%list.
Definition get_signing_oid (k : kkind) (h : string) (pss : bool) : option oid :=
  let kt := key_type k in
  let name := kt ++ "-" ++ h ++ (if pss && String.eqb kt "rsa" then "-pss" else "") in
  match lookup name [("rsa-sha256-pss", "id_RSASSA_PSS"); ("rsa-shake128-pss", "id_RSASSA_PSS_SHAKE128");
                     ("rsa-shake256-pss", "id_RSASSA_PSS_SHAKE256")] with
  | Some o => Some o
  | None =>
      match rlookup kt TRAD_SIG_OID_2_NAME with
      | Some o => Some o
      | None => match rlookup name OID_HASH_MAP0 with
                | Some o => Some o
                | None => rlookup kt (MSG_SIG_ALG ++ SYMMETRIC_PROT_ALGO)%list
                end
      end
  end.
(** Models resources/oid_mapping.py 189-231 (get_alg_oid_from_key_hash) for the keys that are not composite. *)
Definition get_alg_oid_from_key_hash (k : kkind) (h : string) (pss : bool) : result oid :=
  match k with
  | KDsa => if String.eqb h "sha256" then Ok "id_dsa_with_sha256" else Err EValueError
  | _ =>
      match k, get_signing_oid k h pss with
      | KPq n, None =>
          let name := match check_hash_alg n (Some h) false with None => n | Some x => n ++ "-" ++ x end in
          if str_mem name PQ_NAMES then Ok (pq name) else Err EKeyError
      | KStf o, _ => Ok o
      | _, Some o => Ok o
      | _, None => Err EValueError
      end
  end.
(** Models resources/prepare_alg_ids.py 694-762 (prepare_sig_alg_id) with a hash name and without add_null. *)
Definition prepare_sig_alg_id (rnd : Z -> bytes) (k : kkind) (h : string) (pss add : bool) : result algid :=
  let rand p := if add then POctets (rnd 16) else p in
  match k with
  | KComp plain p => let! o := (if pss then p else plain) in Ok (Alg o (rand PAbsent))
  | _ =>
      let! o := get_alg_oid_from_key_hash k h pss in
      if has o RSASSA_PSS_OID_2_NAME then prepare_rsa_pss_alg_id rnd h None add
      else Ok (Alg o (rand (match k with KRsa => PNull | _ => PAbsent end)))
  end.
(** Models resources/protectionutils.py 762-793 (_prepare_signature_prot_alg_id); an empty hash name is replaced. *)
Definition or_string (x : option string) : option string := match x with Some EmptyString => None | _ => x end.
Definition prepare_signature_prot_alg_id (rnd : Z -> bytes) (k : kkind) (hash : option string) (c : option cert)
    (add : bool) : result algid :=
  let! ch := match c with None => Ok None | Some x => get_hash_from_oid (c_sig x) true end in
  let h := match or_string hash with
           | Some x => x
           | None => match or_string ch with Some y => y | None => "sha256" end
           end in
  let! _ := guard (is_sign_kind k) EValueError in
  prepare_sig_alg_id rnd k h false add.

(** Models resources/protectionutils.py 2424-2461 (sign_data_with_alg_id). *)
Definition sign_data_with_alg_id (L : lib) (rnd : Z -> bytes) (k : key) (a : algid) (data : bytes) : result bytes :=
  let o := a_oid a in
  match k_kind k with
  | KComp _ _ =>
      match lookup o COMPOSITE_SIG_OID_TO_NAME with
      | None => Err EKeyError
      | Some n => l_sign L rnd (SComp (endswith "-pss" n)) k data
      end
  | kk =>
      if has o RSASSA_PSS_OID_2_NAME && match kk with KRsa => true | _ => false end then
        let! h := get_hash_from_oid o true in sign_data L rnd k data h true
      else if has o PQ_OID_2_NAME || has o TRAD_SIG_OID_2_NAME then
        let! h := get_hash_from_oid o true in sign_data L rnd k data h false
      else Err EValueError
  end.

(** Models resources/protectionutils.py 2489-2497 (_is_parmeters_null): an OCTET STRING has [asOctets] too. *)
Definition is_parameters_null (p : params) : bool :=
  match p with PNull => true | PRaw b | POctets b => bytes_eqb b [5; 0] | _ => false end.
(** Models resources/protectionutils.py 2500-2618 (_validate_pq_sig_alg_id, _validate_rsa_sig_alg_id,
    _validate_ecc_alg_id, _validate_sig_alg_id). BadSigAlgIDParams is a BadSigAlgID. *)
Definition validate_pq_sig_alg_id (a : algid) : result unit :=
  if has (a_oid a) PQ_STATEFUL_OID_2_NAME then guard (is_absent (a_params a)) EBadSigAlgID
  else if has (a_oid a) PQ_SIG_OID_2_NAME || has (a_oid a) PQ_SIG_PRE_HASH_OID_2_NAME
       then guard (is_absent (a_params a)) EBadSigAlgID
  else Err EBadAlg.
Definition validate_rsa_sig_alg_id (a : algid) : result unit :=
  if has (a_oid a) RSA_OID_2_NAME then guard (is_parameters_null (a_params a)) EBadSigAlgID
  else if has (a_oid a) RSASSA_PSS_OID_2_NAME then
    if String.eqb (a_oid a) "id_RSASSA_PSS" then guard (negb (is_absent (a_params a))) EBadSigAlgID
    else guard (is_absent (a_params a)) EBadSigAlgID
  else Err EBadAlg.
Definition validate_ecc_alg_id (a : algid) : result unit :=
  if has (a_oid a) ECDSA_OID_2_NAME then guard (is_absent (a_params a)) EBadSigAlgID
  else if str_mem (a_oid a) ["id_Ed448"; "id_Ed25519"] then guard (is_absent (a_params a)) EBadSigAlgID
  else Err EBadAlg.
Definition validate_sig_alg_id (a : algid) : result unit :=
  let o := a_oid a in
  if has o COMPOSITE_SIG_OID_TO_NAME then guard (is_absent (a_params a)) EBadSigAlgID
  else if has o ECDSA_OID_2_NAME || str_mem o ["id_Ed448"; "id_Ed25519"] then validate_ecc_alg_id a
  else if has o RSA_OID_2_NAME || has o RSASSA_PSS_OID_2_NAME then validate_rsa_sig_alg_id a
  else if has o PQ_OID_2_NAME then validate_pq_sig_alg_id a
  else Err EBadAlg.

(** Models resources/keyutils.py 684-709 (_check_trad_sig_alg_id); a name that is not in the table is a KeyError, which
    766-774 turn into BadSigAlgID. *)
Definition check_trad_sig_alg_id (k : kkind) (o : oid) (h : option string) : result unit :=
  let hn := match h with None => "None" | Some x => x end in
  let is n := match rlookup n TRAD_SIG_OID_2_NAME with None => false | Some x => String.eqb x o end in
  match k with
  | KEd448 => guard (is "ed448") EBadSigAlgID
  | KEd25519 => guard (is "ed25519") EBadSigAlgID
  | KEc => guard (is ("ecdsa-" ++ hn)) EBadSigAlgID
  | KRsa => guard (is ("rsa-" ++ hn)) EBadSigAlgID
  | _ => Err EBadAlg
  end.
(** Models resources/keyutils.py 712-794 (check_consistency_sig_alg_id_and_key) for identifiers that are not composite:
    the caller modelled here handles those before. *)
Definition check_consistency (o : oid) (k : kkind) : result unit :=
  let! h := match get_hash_from_oid o true with Err EValueError => Err EBadSigAlgID | r => r end in
  match k with
  | KPq n =>
      let name := n ++ match h with None => "" | Some x => "-" ++ x end in
      let! _ := guard (str_mem name PQ_NAMES) EBadSigAlgID in
      guard (String.eqb (pq name) o) EBadSigAlgID
  | KStf s => guard (String.eqb s o) EBadSigAlgID
  | KRsa | KEc | KEd25519 | KEd448 | KDsa => check_trad_sig_alg_id k o h
  | _ => Err EValueError
  end.

(** Models resources/protectionutils.py 1821-1877 (verify_rsassa_pss_from_alg_id) and 1881-1915
    (verify_rsassa_pss_shake). A hash name that is [None] fails in hash_name_to_instance with a TypeError. *)
Definition verify_rsassa_pss_from_alg_id (L : lib) (k : key) (data sig : bytes) (a : algid) : result unit :=
  if String.eqb (a_oid a) "id_RSASSA_PSS" then
    let! _ := guard (negb (is_absent (a_params a))) EValueError in
    let! (ha, mgf, salt) := load sel_pss (l_dec_pss L) (Some EValueError) (a_params a) in
    let! hn := get_hash_from_oid (a_oid ha) false in
    let! h := match hn with None => Err ETypeError | Some n => hash_name_to_instance n end in
    let! _ := guard (String.eqb (a_oid mgf) "id_mgf1") EValueError in
    let! ma := load sel_alg (l_dec_alg L) (Some EValueError) (a_params mgf) in
    let! _ := guard (String.eqb (a_oid ma) (a_oid ha)) EValueError in
    l_verify L (SPss h (if salt =? 0 then digest_size h else salt)) k sig data
  else if str_mem (a_oid a) ["id_RSASSA_PSS_SHAKE128"; "id_RSASSA_PSS_SHAKE256"] then
    let! _ := guard (is_absent (a_params a)) EBadDataFormat in
    let h := if String.eqb (a_oid a) "id_RSASSA_PSS_SHAKE128" then "shake128" else "shake256" in
    l_verify L (SPssShake h (digest_size h)) k sig data
  else Err EValueError.

(** Models resources/protectionutils.py 2622-2685 (verify_signature_with_alg_id). An IndexError of get_hash_from_oid is
    not caught by the handlers. *)
Definition verify_signature_with_alg_id (L : lib) (k : key) (a : algid) (data sig : bytes) : result unit :=
  let o := a_oid a in
  let! _ := validate_sig_alg_id a in
  match lookup o COMPOSITE_SIG_OID_TO_NAME with
  | Some n =>
      match k_kind k with
      | KComp _ _ => l_verify L (SComp (endswith "-pss" n)) k sig data
      | _ => Err ETypeError
      end
  | None =>
      if has o RSASSA_PSS_OID_2_NAME && match k_kind k with KRsa => true | _ => false end
      then verify_rsassa_pss_from_alg_id L k data sig a
      else if has o PQ_OID_2_NAME || has o TRAD_SIG_OID_2_NAME then
        let! h := match (let! h := get_hash_from_oid o true in
                         let! _ := check_consistency o (k_kind k) in Ok h) with
                  | Err EValueError => Err EBadAlg
                  | Err EBadAlg => Err EInvalidSignature
                  | r => r
                  end in
        verify_signature L k sig data h
      else Err EBadAlg
  end.

(** ** Protecting *)

(** The keyword arguments of protect_pkimessage. [o_salt] distinguishes an absent salt from [salt=None]. The shared
    secret is given as bytes; the entries of **params, when present, have the documented types. *)
Record popts := {
  o_password : option sval; o_key : option key; o_cert : option cert; o_exclude : bool;
  o_chain_file : option (list cert); o_certs_dir : bool; o_ss : option bytes; o_bad : bool;
  o_salt : option (option sval); o_iter : option Z; o_len : option Z; o_hash : option string; o_patch : bool;
  o_mac : option string; o_chain : option (list cert); o_peer : option peer; o_rand : bool; o_certificate : option cert
}.
Definition dflt {A} (x : option A) (d : A) : A := match x with Some y => y | None => d end.

(** Models resources/protectionutils.py 843-912 (_prepare_prot_alg_id). *)
Definition prepare_prot_alg_id (rnd : Z -> bytes) (protection : string) (o : popts) : result algid :=
  let! pa := protection_get protection in
  let salt n := match o_salt o with
                | None => Ok (rnd n)
                | Some None => Err EValueError
                | Some (Some s) => str_to_bytes s
                end in
  match pa with
  | PA_HMAC => prepare_hmac_alg_id (dflt (o_hash o) "sha256")
  | PA_KMAC => prepare_kmac_alg_id (dflt (o_hash o) "shake128")
  | PA_PBMAC1 =>
      let! s := salt 16 in
      let! p := prepare_pbmac1_parameters rnd s (dflt (o_iter o) 262144) (dflt (o_len o) 32) (dflt (o_hash o) "sha512") in
      Ok (Alg "id_PBMAC1" p)
  | PA_PBM =>
      let! s := salt 16 in
      let! p := prepare_password_based_mac_parameters rnd s (dflt (o_iter o) 1000) (dflt (o_hash o) "sha256") in
      Ok (Alg "id_PasswordBasedMac" p)
  | PA_GMAC => let! s := salt 12 in prepare_aes_gmac_prot_alg_id rnd protection s
  | PA_SIGNATURE =>
      match o_key o with
      | None => Err EValueError
      | Some k => prepare_signature_prot_alg_id rnd (k_kind k) (o_hash o) (o_certificate o) (o_rand o)
      end
  | PA_DH =>
      let! nonce := match o_salt o with Some (Some s) => str_to_bytes s | _ => Ok [] end in
      let! p := prepare_dh_based_mac_params rnd (dflt (o_hash o) "sha1") (dflt (o_mac o) "hmac") nonce in
      Ok (Alg "id_DHBasedMac" p)
  | PA_PSS => prepare_rsa_pss_alg_id rnd (dflt (o_hash o) "sha256") None false
  end.

(** Models resources/protectionutils.py 796-840 (_prepare_mac_alg_id): here an empty or [None] salt is replaced. *)
Definition prepare_mac_alg_id (rnd : Z -> bytes) (protection : string) (o : popts) : result algid :=
  let! pa := protection_get protection in
  let salt n := match o_salt o with
                | Some (Some s) => if truthy s then str_to_bytes s else Ok (rnd n)
                | _ => Ok (rnd n)
                end in
  match pa with
  | PA_HMAC => prepare_hmac_alg_id (dflt (o_hash o) "sha256")
  | PA_KMAC => prepare_kmac_alg_id (dflt (o_hash o) "shake128")
  | PA_PBMAC1 =>
      let! s := salt 16 in
      let! p := prepare_pbmac1_parameters rnd s (dflt (o_iter o) 262144) (dflt (o_len o) 32) (dflt (o_hash o) "sha512") in
      Ok (Alg "id_PBMAC1" p)
  | PA_PBM =>
      let! s := salt 16 in
      let! p := prepare_password_based_mac_parameters rnd s (dflt (o_iter o) 1000) (dflt (o_hash o) "sha256") in
      Ok (Alg "id_PasswordBasedMac" p)
  | PA_GMAC =>
      let! s := match o_salt o with
                | None => Ok (rnd 12)
                | Some None => Err EValueError
                | Some (Some s) => str_to_bytes s
                end in
      prepare_aes_gmac_prot_alg_id rnd protection s
  | _ => Err EValueError
  end.
(** Models resources/protectionutils.py 515-528 (compute_and_prepare_mac). *)
Definition compute_and_prepare_mac (L : lib) (rnd rnd2 : Z -> bytes) (k data : bytes) (mac_alg : string) (o : popts)
  : result (algid * bytes) :=
  let! a := prepare_mac_alg_id rnd mac_alg o in
  let! v := compute_mac_from_alg_id L rnd2 k a data in
  Ok (a, v).

Definition is_ecdh_kind (k : kkind) : bool := match k with KEc | KX25519 | KX448 => true | _ => false end.
(** Models resources/protectionutils.py 1141-1171 (_perform_dh_based_mac_exchange) and resources/cryptoutils.py 503-556
    (perform_ecdh, [l_ecdh]). *)
Definition dh_exchange (L : lib) (k : option key) (p : option peer) (certs : list cert) : result bytes :=
  let! _ := guard (negb (match certs, p with [], None => true | _, _ => false end)) EValueError in
  match k with
  | None => Err EValueError
  | Some k =>
      let! _ := guard (is_ecdh_kind (k_kind k)) EValueError in
      let! pk := match p, certs with
                 | Some (PeerKey x), _ => Ok x
                 | Some (PeerCert c), _ => c_pub c
                 | None, c :: _ => c_pub c
                 | None, [] => Err EValueError
                 end in
      let! _ := guard (is_ecdh_kind (k_kind pk)) EValueError in
      l_ecdh L k pk
  end.
Definition given (ss : option bytes) : option bytes := match ss with Some [] => None | x => x end.

(** Models resources/protectionutils.py 712-759 (_compute_pkimessage_protection). [rnd] is the randomness of the
    signature and of a missing PBM salt. *)
Definition compute_pkimessage_protection (L : lib) (rnd : Z -> bytes) (m : msg) (a : algid) (o : popts) : result bytes :=
  let! _ := guard (match h_sender (m_header m) with Some _ => true | None => false end) EValueError in
  if String.eqb (a_oid a) "id_DHBasedMac" then
    let! ss := match given (o_ss o) with Some s => Ok s | None => dh_exchange L (o_key o) (o_peer o) [] end in
    compute_symmetric_protection L rnd m a ss false
  else if has (a_oid a) SYMMETRIC_PROT_ALGO then
    match o_password o with
    | None => Err EValueError
    | Some p => let! b := str_to_bytes p in compute_symmetric_protection L rnd m a b false
    end
  else
    let! data := protected_part L m in
    match o_key o with
    | None => Err EValueError
    | Some k =>
        let! _ := guard (is_sign_kind (k_kind k)) EValueError in
        if String.eqb (a_oid a) "id_dsa_with_sha256" && match k_kind k with KDsa => true | _ => false end
        then sign_data L rnd k data (Some "sha256") false
        else sign_data_with_alg_id L rnd k a data
    end.

(** Models resources/protectionutils.py 926-950 (_prepare_certificate_chain). *)
Definition prepare_certificate_chain (L : lib) (c : option cert) (o : popts) : result (option (list cert)) :=
  match o_chain o with
  | Some l => Ok (Some l)
  | None =>
      let! built := match c with
                    | Some x => if o_certs_dir o then let! l := l_chain L x in Ok (Some l) else Ok None
                    | None => Ok None
                    end in
      Ok (match o_chain_file o with Some l => Some (rev l) | None => built end)
  end.
(** Models resources/protectionutils.py 954-983 (patch_sender_and_sender_kid). *)
Definition patch_sender_and_sender_kid (patch : bool) (h : header) (c : option cert) : header :=
  match patch, c with
  | true, Some x =>
      let h1 := match c_ski x, h_kid h with
                | Some s, _ => set_kid h s
                | None, None => set_kid h (c_name x)
                | None, Some _ => h
                end in
      set_sender h1 (c_subject x)
  | _, _ => h
  end.
(** Models resources/protectionutils.py 290-354 (add_cert_to_pkimessage_used_by_protection). The text of 336 is
    [test_data]. *)
Definition test_data : bytes := raw_bytes "test_if_keypair_matches".
Definition add_cert_used_by_protection (L : lib) (rnd : Z -> bytes) (m : msg) (k : key) (c : option cert) : result msg :=
  match c, m_certs m with
  | Some x, [] => Ok (set_certs m [x])
  | Some x, f :: _ => if bytes_eqb (c_der f) (c_der x) then Ok m else Err EValueError
  | None, [] => let! x := l_self_cert L rnd k in Ok (set_certs m [x])
  | None, f :: _ =>
      let! s := sign_data L rnd k test_data (Some "sha256") false in
      let! pk := c_pub f in
      match verify_signature L pk s test_data (Some "sha256") with
      | Err EInvalidSignature => Err EValueError
      | Err e => Err e
      | Ok _ => Ok m
      end
  end.

(** Models resources/protectionutils.py 988-1138 (protect_pkimessage) with a certificate given as an object.
    [rnd] is used for the algorithm identifier, [rnd2] for everything after it. *)
Definition protect_pkimessage (L : lib) (rnd rnd2 : Z -> bytes) (m : msg) (protection : string) (o : popts) : result msg :=
  let! _ := guard (match m_body m with Some _ => true | None => false end) EValueError in
  let! _ := guard (match o_key o, o_ss o with
                   | None, None => match o_password o with Some p => truthy p | None => false end
                   | _, _ => true
                   end) EValueError in
  let! _ := match o_salt o with Some (Some s) => str_to_bytes s | _ => Ok [] end in
  let! c := match o_cert o, o_chain o with
            | None, Some [] => Err EIndexError
            | None, Some (x :: _) => Ok (Some x)
            | x, _ => Ok x
            end in
  let h := if str_mem protection ["signature"; "rsassa-pss"; "rsassa_pss"; "dh"]
           then patch_sender_and_sender_kid (o_patch o) (m_header m) c
           else m_header m in
  let! a := prepare_prot_alg_id rnd protection o in
  let m1 := set_header m (set_alg h a) in
  let! v := compute_pkimessage_protection L rnd2 m1 a o in
  let! chain := prepare_certificate_chain L c o in
  let skip := match c, o_key o with
              | None, Some k => match k_kind k with KX25519 | KX448 => true | _ => false end
              | _, _ => false
              end in
  let! m2 := (if skip then Ok m1
              else match chain, o_exclude o, o_key o with
                   | Some l, false, _ => Ok (set_certs m1 l)
                   | None, false, Some k => add_cert_used_by_protection L rnd2 m1 k c
                   | _, _, _ => Ok m1
                   end) in
  let! v2 := (if o_bad o then manipulate_first_byte v else Ok v) in
  Ok (set_prot m2 v2).

(** The arguments of protect_pkimessage_kem_based_mac: a ciphertext info is given by its ciphertext. *)
Record kopts := { ko_key : option key; ko_ss : option sval; ko_peer : option cert; ko_ct : option bytes; ko_kdf : string;
                  ko_ctx : option bytes; ko_hash : string; ko_bad : bool }.
Definition kem_oid (k : key) : result oid := match k_kind k with KKem o => Ok o | KRsa => Ok "id_kem_rsa" | _ => Err EValueError end.
Definition kct_type : string := "id_it_KemCiphertextInfo".
(** Models resources/protectionutils.py 2236-2240 (may_get_tx_id). *)
Definition may_get_tx_id (h : header) : result bytes :=
  match h_tx h with Some t => Ok t | None => Err EBadMessageCheck end.
(** Models resources/protectionutils.py 2244-2323 (protect_pkimessage_kem_based_mac) and 2165-2204
    (prepare_kem_ciphertextinfo). [seed] is the randomness of the encapsulation. *)
Definition protect_kem (L : lib) (rnd : Z -> bytes) (seed : bytes) (m : msg) (o : kopts) : result msg :=
  let! _ := guard (match ko_key o, ko_ct o, ko_peer o, ko_ss o with None, None, None, None => false | _, _, _, _ => true end)
                  EValueError in
  let! (ss, h) :=
    (match ko_ss o, ko_ct o with
     | Some s, _ => let! b := str_to_bytes s in Ok (b, m_header m)
     | None, Some ct =>
         match ko_key o with
         | Some k => let! _ := guard (match k_kind k with KKem _ => true | _ => false end) EValueError in
                     let! s := l_decaps L k ct in Ok (s, m_header m)
         | None => Err EValueError
         end
     | None, None =>
         match ko_peer o with
         | None => Err ETypeError
         | Some c =>
             let! pk := c_pub c in
             let! _ := guard (match k_kind pk with KKem _ => true | _ => false end) EValueError in
             let! (s, ct) := l_encaps L pk seed in
             let! ko := kem_oid pk in
             Ok (s, add_info (m_header m) {| i_type := kct_type; i_val := PCt (Alg ko PAbsent) ct |})
         end
     end) in
  let! a := prepare_kem_based_mac_alg_id rnd (ko_ctx o) (ko_kdf o) None 100000 32 (ko_hash o) in
  let m1 := set_header m (set_alg h a) in
  let! data := protected_part L m1 in
  let! tx := may_get_tx_id (m_header m1) in
  let! v := compute_kem_based_mac_from_alg_id L data a ss tx in
  let! v2 := (if ko_bad o then manipulate_first_byte v else Ok v) in
  Ok (set_prot m1 v2).

(** ** Verifying *)

(** The arguments of verify_pkimessage_protection. *)
Record vopts := { v_key : option key; v_password : option sval; v_public : option key; v_ss : option bytes; v_lw : bool }.

(** Models resources/protectionutils.py 1370-1409 (_enforce_lwcmp_protection_alg). *)
Definition enforce_lwcmp_protection_alg (o : oid) (allow_dh allow_kem : bool) : result ptype :=
  let! t := get_protection_type o in
  match t with
  | T_KEM => let! _ := guard allow_kem EBadAlg in Ok t
  | T_DH => let! _ := guard allow_dh EBadAlg in Ok t
  | T_MAC => let! _ := guard (has o LWCMP_MAC_OID_2_NAME) EBadAlg in Ok t
  | T_SIG => let! _ := guard (has o MSG_SIG_ALG) EBadAlg in Ok t
  | _ => Err EBadAlg
  end.
(** Models resources/protectionutils.py 1413-1487 (get_protection_type_from_pkimessage). The tests of 1471-1485 repeat
    the ones that chose the type. *)
Definition get_protection_type_from_pkimessage (h : header) (lw allow_dh allow_kem : bool) : result ptype :=
  match h_alg h with
  | None => Err EValueError
  | Some a =>
      let o := a_oid a in
      let! t := get_protection_type o in
      if lw then enforce_lwcmp_protection_alg o allow_dh allow_kem
      else match t with
           | T_KEM => let! _ := guard allow_kem EBadAlg in Ok t
           | T_DH => let! _ := guard allow_dh EBadAlg in Ok t
           | _ => if has o SYMMETRIC_PROT_ALGO then Ok T_MAC
                  else if has o TRAD_SIG_OID_2_NAME then Ok T_SIG
                  else if has o PQ_STATEFUL_OID_2_NAME then Ok t
                  else if has o COMPOSITE_SIG_OID_TO_NAME then Ok T_COMP
                  else if has o PQ_SIG_OID_2_NAME then Ok T_PQ
                  else Err EUnknownOID
           end
  end.

(** Models resources/protectionutils.py 1175-1208 (_verify_dh_based_protection). *)
Definition verify_dh_based_protection (L : lib) (rnd : Z -> bytes) (m : msg) (a : algid) (v : bytes) (o : vopts) : result unit :=
  let! _ := guard (match v_ss o, v_key o with None, None => false | _, _ => true end) EValueError in
  let! ss := match given (v_ss o) with
             | Some s => Ok s
             | None => dh_exchange L (v_key o) (option_map PeerKey (v_public o)) (m_certs m)
             end in
  let! e := compute_symmetric_protection L rnd m a ss false in
  guard (bytes_eqb v e) EBadMessageCheck.
(** The first KemCiphertextInfo of generalInfo (resources/protectionutils.py 2355-2359). *)
Fixpoint first_kct (l : list info) : option params :=
  match l with
  | [] => None
  | i :: r => if String.eqb (i_type i) kct_type then Some (i_val i) else first_kct r
  end.
(** Models resources/protectionutils.py 2327-2397 (verify_kem_based_mac_protection): a value that was not encoded has
    nothing to decode (2364). [l_decaps] stands for compute_decapsulation (resources/cryptoutils.py 850-896). *)
Definition verify_kem (L : lib) (m : msg) (a : algid) (v : bytes) (o : vopts) : result unit :=
  let! _ := guard (match v_ss o, v_key o with None, None => false | _, _ => true end) EValueError in
  let! _ := match v_key o with
            | Some k => guard (match k_kind k with KKem _ => true | _ => false end) EValueError
            | None => Ok tt
            end in
  let! ss := match v_ss o, v_key o with
             | Some s, _ => Ok s
             | None, None => Err EValueError
             | None, Some k =>
                 match first_kct (h_info (m_header m)) with
                 | None => Err EValueError
                 | Some p =>
                     let! (ka, ct) := load (fun _ => None) (l_dec_ct L) (Some EValueError) p in
                     let! ko := kem_oid k in
                     let! _ := guard (String.eqb (a_oid ka) ko) EValueError in
                     l_decaps L k ct
                 end
             end in
  let! data := protected_part L m in
  let! tx := may_get_tx_id (m_header m) in
  let! e := compute_kem_based_mac_from_alg_id L data a ss tx in
  guard (bytes_eqb e v) EBadMessageCheck.
(** Models resources/protectionutils.py 1308-1339 (_verify_pki_message_sig) and resources/certutils.py 1221-1240
    (verify_signature_with_cert). *)
Definition verify_pki_message_sig (L : lib) (m : msg) (a : algid) (v : bytes) (public : option key) : result unit :=
  let! data := protected_part L m in
  let from_cert := match m_certs m with [] => Err EIndexError | c :: _ => c_pub c end in
  if has (a_oid a) RSASSA_PSS_OID_2_NAME then
    let! k := match public with Some k => Ok k | None => from_cert end in
    let! _ := guard (match k_kind k with KRsa => true | _ => false end) EValueError in
    verify_rsassa_pss_from_alg_id L k data v a
  else
    let! hn := get_hash_from_oid (a_oid a) false in
    let h := match hn with None => None | Some n => Some (last_part n) end in
    match public with
    | Some k => verify_signature_with_alg_id L k a data v
    | None =>
        let! k := from_cert in
        let! _ := guard (is_sign_kind (k_kind k)) EValueError in
        verify_signature L k v data h
    end.
(** Models resources/protectionutils.py 1212-1305 (verify_pkimessage_protection). BadMacProtection is a
    BadMessageCheck. *)
Definition verify_pkimessage_protection (L : lib) (rnd : Z -> bytes) (m : msg) (o : vopts) : result unit :=
  let! v := match m_prot m with None => Err EPyAsn1 | Some v => Ok v end in
  let! _ := (if v_lw o then let! _ := get_protection_type_from_pkimessage (m_header m) true true true in Ok tt else Ok tt) in
  match h_alg (m_header m) with
  | None => Err EPyAsn1
  | Some a =>
      if String.eqb (a_oid a) "id_KemBasedMac" then verify_kem L m a v o
      else if String.eqb (a_oid a) "id_DHBasedMac" then verify_dh_based_protection L rnd m a v o
      else if has (a_oid a) SYMMETRIC_PROT_ALGO then
        match v_password o with
        | None => Err EValueError
        | Some p =>
            let! b := str_to_bytes p in
            let! e := compute_symmetric_protection L rnd m a b (v_lw o) in
            guard (bytes_eqb v e) EBadMessageCheck
        end
      else if has (a_oid a) RSASSA_PSS_OID_2_NAME || has (a_oid a) TRAD_SIG_OID_2_NAME || has (a_oid a) PQ_SIG_OID_2_NAME
              || has (a_oid a) PQ_STATEFUL_OID_2_NAME
      then verify_pki_message_sig L m a v (v_public o)
      else Err EValueError
  end.
