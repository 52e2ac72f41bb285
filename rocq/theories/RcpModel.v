(** Recipient infos made for a public key or a password, and the encrypted key of a proof of possession
    (resources/envdatautils.py lines 268-298 and 1095-1370).

    Simplifications.  Keys, certificates, passwords and the single structures are byte strings; a CHOICE has a value.  The
    functions that make the single structures, which are modelled in [EnvlModel], are here the fields of [lib].  Random
    bytes are an argument. *)
From Coq Require Import String.
From Verif Require Import Prelude PyStr.
Open Scope string_scope.
Open Scope Z_scope.
Open Scope list_scope.

(** The value of the CHOICE RecipientInfo; [ROri t b]: other recipient info of the type [t]. *)
Inductive rinfo :=
| RKtri (b : bytes) | RKari (b : bytes) | RKek (b : bytes) | RPwri (b : bytes) | ROri (t : string) (b : bytes).
(** What parse_recip_info is called with. *)
Inductive robj :=
| ORecip (r : rinfo) | OKari (b : bytes) | OOther (t : string) (b : bytes) | OKem (b : bytes) | OKtri (b : bytes) | OPwri (b : bytes) | OUnknown.
Inductive pub := PRsa (k : bytes) | PEcdh (k : bytes) | PKem (k : bytes) | POther (k : bytes).
(** RecipientIdentifier and OriginatorIdentifierOrKey *)
Inductive ident := Ias (issuer : bytes) (serial : Z) | Ski (b : bytes).

(** RecipientInfo.getName *)
Definition name_of (r : rinfo) : string :=
  match r with RKtri _ => "ktri" | RKari _ => "kari" | RKek _ => "kekri" | RPwri _ => "pwri" | ROri _ _ => "ori" end.

Record lib := {
  b_ktri : bytes -> bytes -> option bytes -> option bytes -> option ident -> bool -> result bytes;
                                                             (* key, cek, cert, issuer_and_ser, rid, use_rsa_oaep *)
  b_kari : bytes -> bytes -> bytes -> option bytes -> option bytes -> option ident -> option ident -> result bytes;
                                                             (* key, private key, cek, cert, issuer_and_ser, rid, originator *)
  b_kem : bytes -> bytes -> option bytes -> option bytes -> option ident -> string -> result bytes;
                                                             (* key, cek, cert, issuer_and_ser, rid, kdf_name *)
  b_pw : bytes -> bytes -> option bytes -> string -> result bytes; (* password, cek, salt, kdf_name *)
  b_content : bytes -> bytes -> result bytes;                (* prepare_encrypted_content_info: cek, data *)
  b_load : bytes -> result pub;                              (* load_public_key_from_spki of a certificate *)
  b_rid : bytes -> result ident                              (* prepare_recipient_identifier(cert=...) *)
}.

(** Models resources/envdatautils.py 1095-1132 (parse_recip_info). *)
Definition parse_recip_info (o : robj) : result rinfo :=
  match o with
  | ORecip r => Ok r
  | OKari b => Ok (RKari b)
  | OOther t b => Ok (ROri t b)
  | OKem b => Ok (ROri "id_ori_kem" b)
  | OKtri b => Ok (RKtri b)
  | OPwri b => Ok (RPwri b)
  | OUnknown => Err EValueError
  end.

Record args := {
  a_key : option pub; a_priv : option bytes; a_cert : option bytes; a_pw : option bytes; a_cek : option bytes;
  a_ias : option bytes; a_rid : option ident; a_oaep : bool; a_salt : option bytes; a_kdf : string; a_orig : option ident
}.

(** Models resources/envdatautils.py 1136-1230 (prepare_recip_info) for a content encryption key that is a byte string;
    [rnd] is os.urandom(32). *)
Definition prepare_recip_info (L : lib) (rnd : bytes) (a : args) : result rinfo :=
  let cek := match a_cek a with None => rnd | Some k => k end in
  let by_password :=
    match a_pw a with
    | None => Err EValueError
    | Some pw => let! b := b_pw L pw cek (a_salt a) (a_kdf a) in parse_recip_info (OPwri b)
    end in
  match a_key a with
  | Some (PRsa k) =>
      let! b := b_ktri L k cek (a_cert a) (a_ias a) (a_rid a) (a_oaep a) in parse_recip_info (OKtri b)
  | Some (PEcdh k) =>
      match a_priv a with
      | None => Err EValueError
      | Some p => let! b := b_kari L k p cek (a_cert a) (a_ias a) (a_rid a) (a_orig a) in parse_recip_info (OKari b)
      end
  | Some (PKem k) =>
      let! b := b_kem L k cek (a_cert a) (a_ias a) (a_rid a) (a_kdf a) in parse_recip_info (OKem b)
  | _ => by_password
  end.

(** Models resources/envdatautils.py 268-298 (prepare_originator_with_rid). *)
Definition prepare_originator_with_rid (r : ident) : ident :=
  match r with Ias i s => Ias i s | Ski b => Ski b end.

(** Models resources/envdatautils.py 1233-1245 (_prepare_rid_for_enc_key). *)
Definition prepare_rid (L : lib) (k : pub) (ca cmp : bytes) : result ident :=
  match k with PKem _ => b_rid L ca | _ => b_rid L cmp end.

Record envelope := { v_version : Z; v_infos : list rinfo; v_content : bytes }.
(** The field of ProofOfPossession that is set, and the enveloped data. *)
Record popo := { p_option : string; p_env : envelope }.

Record pargs := {
  q_data : bytes; q_rid : option ident; q_ca : option bytes; q_recip : option robj; q_agree : bool; q_version : option Z;
  q_cek : option bytes; q_priv : option bytes; q_orig : option ident; q_cmp : option bytes
}.

(** Models the part of resources/envdatautils.py 1249-1340 (prepare_enc_key_for_popo) that makes the recipient info;
    lines 1299-1325. *)
Definition recip_for_popo (L : lib) (cek : bytes) (q : pargs) : result rinfo :=
  match q_recip q with
  | Some o => parse_recip_info o
  | None =>
      match q_ca q with
      | None => Err EValueError
      | Some ca =>
          let! k := b_load L ca in
          let! rid := match q_rid q, q_cmp q with
                      | None, Some cmp => let! r := prepare_rid L k ca cmp in Ok (Some r)
                      | r, _ => Ok r
                      end in
          let orig := match rid, q_orig q, k with
                      | Some r, None, PEcdh _ => Some (prepare_originator_with_rid r)
                      | _, o, _ => o
                      end in
          prepare_recip_info L [] {| a_key := Some k; a_priv := q_priv q; a_cert := Some ca; a_pw := None; a_cek := Some cek; a_ias := None;
                                     a_rid := rid; a_oaep := true; a_salt := None; a_kdf := "hkdf"; a_orig := orig |}
      end
  end.

(** Models resources/envdatautils.py 1249-1340 (prepare_enc_key_for_popo), 1343-1370 (parse_encrypted_key_for_popo) and
    219-264 (prepare_enveloped_data) with one RecipientInfo; [rnd] is os.urandom(32). *)
Definition enc_key_for_popo (L : lib) (rnd : bytes) (q : pargs) : result popo :=
  let cek := match q_cek q with None | Some [] => rnd | Some k => k end in
  let! r := recip_for_popo L cek q in
  let version := match q_version q with
                 | Some v => v
                 | None => if String.eqb (name_of r) "ori" || String.eqb (name_of r) "pwri" then 0 else 2
                 end in
  let! r' := parse_recip_info (ORecip r) in
  let! c := b_content L cek (q_data q) in
  Ok {| p_option := if q_agree q then "keyAgreement" else "keyEncipherment";
        p_env := {| v_version := version; v_infos := [r']; v_content := c |} |}.
