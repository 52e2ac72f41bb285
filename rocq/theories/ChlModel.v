(** Proof of possession by challenge (resources/ca_ra_utils.py lines 110-307 and 3684-3791 on the side of the CA,
    resources/extra_issuing_logic.py lines 236-273 and 352-696 on the side of the end entity, mock_ca/challenge_handler.py
    lines 83-123), and the out-of-band hash of a CA certificate (resources/ca_ra_utils.py lines 310-415).

    Simplifications.  Names are byte strings (the encoding of a GeneralName).  Keys are byte strings with the class that
    the code asks for with [isinstance].  RSA, ECDH, KEMs, AES-CBC, the derivation of the key from the shared secret
    (C94), the building and opening of an [EnvelopedData] (C98 to C103), hash functions and codecs are the fields of
    [lib].  What the random number generator returns is an argument.  Of the header the version, the transaction
    identifier and the nonces are modelled. *)
From Coq Require Import String.
From Verif Require Import Prelude PyStr GenModel.
Open Scope string_scope.
Open Scope Z_scope.
Open Scope list_scope.
Local Notation length := List.length.

(** [Rand]: the number and the name of the sender. *)
Record rand := { r_int : Z; r_sender : bytes }.

(** Public and private keys by class: RSA, ECDH (with the Python type: EC, X25519, X448), KEM, any other. *)
Inductive pub := PRsa (k : bytes) | PDh (t : string) (k : bytes) | PKem (k : bytes) | POther (k : bytes).
Inductive priv := SRsa (k : bytes) | SDh (t : string) (k : bytes) | SKem (k : bytes) | SOther (k : bytes).

(** The recipients of an [EnvelopedData]: key transport, key encapsulation ([Some] for a decoded KEMRecipientInfo,
    [None] if the value does not decode), another [ori] type, key agreement, and password. *)
Inductive rid := RSerial (issuer : bytes) (serial : Z) | RKeyId.
Inductive recip := Ktri (r : rid) | Kemri (r : option rid) | OtherOri | Kari (l : list rid) | Pwri.
Record envd := { v_recips : list recip; v_data : bytes }.

(** [Challenge]. *)
Record chal := { c_owf : option bytes; c_wit : bytes; c_val : bytes; c_env : option envd }.

(** The request, seen by the CA: the public key and the identifier of each entry. *)
Record req := { q_body : string; q_reqs : list (result pub * Z); q_pvno : Z; q_mac : bool; q_tx : option bytes }.
(** The CA's message, seen by the end entity. *)
Record cmsg := { m_body : string; m_pvno : Z; m_chals : list chal; m_extra : list cert; m_kem : option bytes;
                 m_tx : option bytes; m_sn : option bytes; m_rn : option bytes }.
(** The answer of the end entity. *)
Record ans := { a_nums : list Z; a_tx : bytes; a_rn : bytes; a_sn : bytes }.

Record lib := {
  l_rand : der rand;
  l_name : string -> result bytes;                          (* prepare_general_name("directoryName", s) *)
  l_same : bytes -> string -> result bool;                  (* prepare_name, compare_general_name_and_name *)
  l_subject : cert -> bytes;
  l_hash : string -> bytes -> result bytes;
  l_sha : string -> result bytes;                           (* prepare_sha_alg_id *)
  l_rsa_enc : bytes -> bytes -> result bytes; l_rsa_dec : bytes -> bytes -> result bytes;
  l_dh : priv -> pub -> result bytes; l_derive : bytes -> result bytes;
  l_encaps : bytes -> result (bytes * bytes); l_decaps : bytes -> option bytes -> result bytes;
  l_aes : bytes -> bytes -> bytes -> result bytes; l_unaes : bytes -> bytes -> bytes -> result bytes;
  l_seal : pub -> option priv -> Z -> bytes -> result envd; (* build_env_data_for_exchange with the NULL-DN *)
  l_open : cmsg -> envd -> priv -> option cert -> result bytes;   (* validate_enveloped_data(for_pop=True) *)
  l_load : cert -> result pub;
  l_null : bytes -> bool                                    (* is_null_dn *)
}.

(** ** The CA *)

(** resources/ca_ra_utils.py lines 110-140, [_prepare_rand]; [rnd] is [int.from_bytes(os.urandom(4), "big")]. *)
Definition prepare_rand (L : lib) (sender : option string) (n : option Z) (c : option cert) (rnd : Z) : result rand :=
  let! _ := guard (negb (match sender, c with None, None => true | _, _ => false end)) EValueError in
  let z := match n with Some z => z | None => rnd end in
  let! s := match sender with Some s => let! g := l_name L s in Ok (Some g) | None => Ok None end in
  match c, s with
  | Some c, _ => Ok {| r_int := z; r_sender := l_subject L c |}
  | None, Some g => Ok {| r_int := z; r_sender := g |}
  | None, None => Err EPyAsn1
  end.

(** [n.to_bytes(4, "big")]. *)
Definition be4 (n : Z) : result bytes :=
  let! _ := guard ((0 <=? n) && (n <? 256 * 256 * 256 * 256)) EOverflow in
  Ok [n / (256 * 256 * 256); (n / (256 * 256)) mod 256; (n / 256) mod 256; n mod 256].

(** resources/utils.py lines 105-115, [manipulate_first_byte]. *)
Definition spoil (b : bytes) : result bytes :=
  match b with [] => Err EIndexError | x :: r => Ok ((if x =? 0 then 1 else 0) :: r) end.

(** resources/ca_ra_utils.py lines 143-169, [_prepare_witness_val]: the algorithm and the witness; [noise] is
    [os.urandom(32)]; an empty name of the hash counts as none. *)
Definition witness (L : lib) (h : option string) (n : Z) (bad : bool) (noise : bytes) : result (option bytes * bytes) :=
  match h with
  | None => Ok (None, if bad then noise else [])
  | Some a =>
      if String.eqb a "" then Ok (None, if bad then noise else []) else
      let! o := l_sha L a in
      let! b := be4 n in
      let! w := l_hash L a b in
      if bad then let! w' := spoil w in Ok (Some o, w') else Ok (Some o, w)
  end.

(** resources/ca_ra_utils.py lines 173-227, [prepare_challenge]: the challenge and the ciphertext of a KEM. *)
Definition prepare_challenge (L : lib) (k : pub) (ca : option priv) (bad : bool) (h sender : option string) (n : option Z)
  (iv : bytes) (c : option cert) (rnd : Z) (noise : bytes) : result (chal * option bytes) :=
  let! r := prepare_rand L sender n c rnd in
  let data := enc (l_rand L) r in
  let! w := witness L h (r_int r) bad noise in
  let make v := {| c_owf := fst w; c_wit := snd w; c_val := v; c_env := None |} in
  match k with
  | PRsa p => let! e := l_rsa_enc L p data in Ok (make e, None)
  | PDh _ _ =>
      match ca with
      | Some (SDh t s) =>
          let! ss := l_dh L (SDh t s) k in
          let! dk := l_derive L ss in
          let! e := l_aes L dk iv data in Ok (make e, None)
      | _ => Err EValueError
      end
  | PKem p =>
      let! sc := l_encaps L p in
      let! e := l_aes L (fst sc) iv data in Ok (make e, Some (snd sc))
  | POther _ => Err EValueError
  end.

(** The [challenge] argument: a byte string, or the dictionary of open challenges that the handler hands over. *)
Inductive carg := CBytes (b : bytes) | CDict (n : nat).
(** resources/ca_ra_utils.py lines 302-303 and resources/convertutils.py lines 236-252 ([str_to_bytes]). *)
Definition challenge_bytes (a : carg) : result bytes :=
  match a with CBytes b => Ok b | CDict n => if (n =? 0)%nat then Ok [] else Err EValueError end.

(** resources/ca_ra_utils.py lines 231-307, [prepare_challenge_enc_rand], without a hybrid key. *)
Definition prepare_enc_rand (L : lib) (k : pub) (sender : option string) (n : option Z) (h : option string) (bad : bool)
  (id : Z) (ca : option priv) (a : carg) (c : option cert) (rnd : Z) (noise : bytes) : result chal :=
  let! r := prepare_rand L sender n c rnd in
  let! e := l_seal L k ca id (enc (l_rand L) r) in
  let! w := witness L h (r_int r) bad noise in
  let! b := challenge_bytes a in
  Ok {| c_owf := fst w; c_wit := snd w; c_val := b; c_env := Some e |}.

(** Python's [x or y] for integers. *)
Definition or_z (x : option Z) (y : Z) : Z := match x with Some z => if z =? 0 then y else z | None => y end.

(** resources/ca_ra_utils.py lines 3684-3791, [build_popdecc_from_request] with [request_index] 0 and without
    [set_header_fields] details: version, body, ciphertext in the header and the number. [small] is
    [random.randint(1, 1000)]. *)
Definition build_popdecc (L : lib) (q : req) (ca : option priv) (n : option Z) (id : option Z) (size : Z)
  (sender : option string) (bad : bool) (pv : option Z) (a : carg) (h : option string) (iv : bytes) (c : option cert)
  (small rnd : Z) (noise : bytes) : result (Z * chal * option bytes * Z) :=
  let! _ := guard (size =? Z.of_nat (length (q_reqs q))) EBadRequest in
  match q_reqs q with
  | [] => Err EIndexError
  | (k, i) :: _ =>
      let! k := k in
      let i := or_z id i in
      let n := or_z n small in
      let pv := or_z pv (q_pvno q) in
      if pv =? 3 then
        let! x := prepare_enc_rand L k sender (Some n) h bad i ca a c rnd noise in Ok (pv, x, None, n)
      else
        let! x := prepare_challenge L k ca bad h sender (Some n) iv None rnd noise in Ok (pv, fst x, snd x, n)
  end.

(** mock_ca/challenge_handler.py lines 67-81: the CA's keys and the certificate for the name. *)
Record conf := { f_ec : option priv; f_x25519 : option priv; f_x448 : option priv; f_cert : cert }.
(** mock_ca/challenge_handler.py lines 84-100, [_get_ca_key]; [p] is the name of the proof of possession. *)
Definition ca_key (F : conf) (p : string) (k : pub) : result (option priv) :=
  if String.eqb p "keyEncipherment" then
    match k with PRsa _ | PKem _ => Ok None | _ => Err EBadCertTemplate end
  else if String.eqb p "keyAgreement" then
    match k with
    | PDh t _ => Ok (if String.eqb t "X448" then f_x448 F else if String.eqb t "X25519" then f_x25519 F else f_ec F)
    | _ => Err EBadCertTemplate
    end
  else Ok None.

(** mock_ca/challenge_handler.py lines 102-123, [_process_challenge]: the open challenges (number and transaction)
    and the message. *)
Definition open_challenges := list (Z * bytes).
Definition mock_challenge (L : lib) (F : conf) (s : open_challenges) (p : string) (q : req) (num small rnd : Z) (noise : bytes)
  : result (open_challenges * (Z * chal * option bytes * Z)) :=
  let! _ := guard (negb ((q_pvno q =? 3) && q_mac q)) EBadRequest in
  match q_reqs q with
  | [] => Err EIndexError
  | (k, _) :: _ =>
      let! k := k in
      let! ca := ca_key F p k in
      let! r := build_popdecc L q ca (Some num) None 1 (Some "CN=CMP-Test-Suite") false None (CDict (length s)) None
                  (repeat 65 16) (Some (f_cert F)) small rnd noise in
      match q_tx q with
      | None => Err EPyAsn1
      | Some t =>
          let k := (snd r, t) in
          Ok (filter (fun o => negb ((fst o =? fst k) && bytes_eqb (snd o) t)) s ++ [k], r)
      end
  end.

(** ** The end entity *)

(** resources/extra_issuing_logic.py lines 236-273, [_extract_rid]. *)
Definition extract_rid (x : recip) (i : nat) : result (bytes * Z) :=
  let is r := match r with RSerial n s => Ok (n, s) | RKeyId => Err EValueError end in
  match x with
  | Ktri r => is r
  | Kemri (Some r) => is r
  | Kemri None => Err EPyAsn1
  | OtherOri => Err ENotImplemented
  | Kari l => match nth_error l i with Some r => is r | None => Err EPyAsn1 end
  | Pwri => Err EValueError
  end.

(** resources/extra_issuing_logic.py lines 352-395, [validate_rid_for_encrypted_rand]. *)
Definition validate_rid (L : lib) (v : envd) (id : Z) (ri ki : nat) : result unit :=
  match nth_error (v_recips v) ri with
  | None => Err EPyAsn1
  | Some x =>
      let! r := extract_rid x ki in
      let! _ := guard (l_null L (fst r)) EValueError in
      guard (snd r =? id) EValueError
  end.

(** resources/extra_issuing_logic.py lines 414-449, [_may_get_kari_public_key]; a certificate beyond the end of
    extraCerts is made by pyasn1 and has no value. *)
Definition kari_key (L : lib) (k : priv) (kc : option cert) (m : cmsg) : result (option pub) :=
  match k with
  | SDh t _ =>
      let same p := match p with PDh t' _ => String.eqb t' t | _ => false end in
      match kc with
      | Some c => let! p := l_load L c in match p with PDh _ _ => Ok (Some p) | _ => Err EValueError end
      | None =>
          match m_extra m with
          | [] => Err EValueError
          | c :: r =>
              let! p := l_load L c in
              if same p then Ok (Some p) else
              match r with
              | [] => Err EValueError
              | d :: _ => let! p := l_load L d in if same p then Ok (Some p) else Err EValueError
              end
          end
      end
  | _ => Ok None
  end.

(** resources/extra_issuing_logic.py lines 574-589, [validate_popdecc_version]. *)
Definition has_env (c : chal) : bool := match c_env c with Some _ => true | None => false end.
Definition has_val (c : chal) : bool := match c_val c with [] => false | _ => true end.
Definition check_version (m : cmsg) : result unit :=
  let e := existsb has_env (m_chals m) in
  let v := existsb has_val (m_chals m) in
  let! _ := guard (negb (negb (m_pvno m =? 3) && e)) EBadRequest in
  let! _ := guard (negb (negb (m_pvno m =? 2) && negb e)) EBadRequest in
  guard (negb (e && v)) EBadRequest.

(** resources/extra_issuing_logic.py lines 592-644, [_process_encrypted_rand]. *)
Definition process_env (L : lib) (v : envd) (m : cmsg) (k : priv) (ri : nat) (id : Z) (kc : option cert) : result rand :=
  let! _ := validate_rid L v id ri 0 in
  let! b := l_open L m v k kc in
  let! p := try_decode (l_rand L) (Some b) in
  no_rest p EBadAsn1Data.

(** resources/extra_issuing_logic.py lines 648-696, [process_simple_challenge]. *)
Definition process_simple (L : lib) (c : chal) (iv : bytes) (k : priv) (p : option pub) (ct : option bytes) : result rand :=
  let read b := let! x := decode (l_rand L) (Some b) in no_rest x EBadAsn1Data in
  match k with
  | SRsa s => let! b := l_rsa_dec L s (c_val c) in read b
  | SDh _ _ =>
      match p with
      | None => Err EValueError
      | Some p =>
          let! ss := l_dh L k p in
          let! dk := l_derive L ss in
          let! b := l_unaes L dk iv (c_val c) in read b
      end
  | SKem s => let! ss := l_decaps L s ct in let! b := l_unaes L ss iv (c_val c) in read b
  | SOther _ => Err EValueError
  end.

(** resources/extra_issuing_logic.py lines 398-411 and resources/cmputils.py lines 3275-3323: the header of the answer;
    without keyword arguments. *)
Definition answer_header (m : cmsg) (n : Z) : result ans :=
  match m_tx m, m_sn m, m_rn m with
  | Some t, Some s, Some r => Ok {| a_nums := [n]; a_tx := t; a_rn := s; a_sn := r |}
  | _, _, _ => Err EPyAsn1
  end.

(** resources/extra_issuing_logic.py lines 453-570, [process_pkimessage_with_popdecc]; a wrong sender is a ValueError,
    as is an unprintable one; pyasn1 makes an empty element beyond the end of a list,
    whose fields cannot be read. *)
Definition process_popdecc (L : lib) (m : cmsg) (k : priv) (size : Z) (i : nat) (id : Z) (ri : nat)
  (sender : option string) (iv : bytes) (ver : option Z) (kc : option cert) : result ans :=
  let! _ := guard (String.eqb (m_body m) "popdecc") EValueError in
  let! _ := guard (Z.of_nat (length (m_chals m)) =? size) EBadRequest in
  match nth_error (m_chals m) i with
  | None => Err EPyAsn1
  | Some c =>
      let! _ := check_version m in
      let! _ := guard (negb (match ver with Some z => (z =? 3) && negb (has_env c) | None => false end)) EBadRequest in
      let! _ := guard (negb (match ver with Some z => (z =? 2) && has_env c | None => false end)) EBadRequest in
      let! r :=
        match c_env c with
        | Some v => process_env L v m k ri id kc
        | None =>
            let! p := kari_key L k kc m in
            process_simple L c iv k p None
        end in
      let! _ :=
        match sender with
        | None => Ok tt
        | Some s => let! b := l_same L (r_sender r) s in guard b EValueError
        end in
      answer_header m (r_int r)
  end.

(** ** Out-of-band hash of a CA certificate *)

(** The parts of a CA certificate that are read; [o_san] and [o_ian] are criticality and value. *)
Record ca_cert := { o_der : bytes; o_issuer : bytes; o_serial : Z; o_subject : bytes;
                    o_san : option (bool * bytes); o_ian : option (bool * bytes) }.
Record oob := { h_alg : oid; h_issuer : bytes; h_serial : Z; h_val : bytes }.
Record olib := {
  o_hash : string -> bytes -> result bytes; o_oid : string -> result oid; o_name : oid -> result (option string);
  o_enc : oob -> bytes; o_signer : ca_cert -> result bool; o_null : bytes -> bool; o_lint : ca_cert -> result unit
}.

(** resources/ca_ra_utils.py lines 310-340, [prepare_oob_cert_hash]; the issuer is copied; whether pyasn1 allows the
    assignment of the untagged CertId (line 334) is not modelled. *)
Definition prepare_oob (L : olib) (c : ca_cert) (h : string) : result oob :=
  let! s := o_hash L h (o_der c) in
  let! o := o_oid L h in
  Ok {| h_alg := o; h_issuer := o_issuer c; h_serial := o_serial c; h_val := s |}.

(** resources/ca_ra_utils.py lines 347-415, [validate_oob_cert_hash]: line 372 hashes the structure that holds the hash. *)
Definition validate_oob (L : olib) (c : ca_cert) (x : oob) : result unit :=
  let! n := o_name L (h_alg x) in
  match n with
  | None => Err EBadAlg
  | Some n =>
      let! s := o_hash L n (o_enc L x) in
      let! _ := guard (bytes_eqb s (h_val x)) EValueError in
      let! _ := guard (bytes_eqb (o_issuer c) (h_issuer x)) EValueError in
      let! _ := guard (o_serial c =? h_serial x) EValueError in
      let! b := o_signer L c in
      let! _ := guard b EValueError in
      let! _ :=
        if o_null L (o_subject c) then
          match o_ian c, o_san c with
          | None, _ => Err EValueError
          | _, None => Err EValueError
          | Some i, Some a =>
              let! _ := guard (Bool.eqb (fst a) (fst i)) EValueError in
              guard (bytes_eqb (snd a) (snd i)) EValueError
          end
        else Ok tt in
      o_lint L c
  end.
