(** Checks of the body of a certificate response by the client (resources/checkutils.py lines 67-305, 1700-1917 and
    2244-2291, with the accessors of resources/cmputils.py lines 3783-3785, 3834-3843, 3893-3909 and 5092-5109).

    Simplifications.  Certificates are byte strings.  Of an EncryptedKey it is modelled whether it is EnvelopedData.
    The checks of trust anchors, the building and verification of chains, the kind of protection and the comparison
    of protection algorithms (C37 and following) are the fields of [lib].  Arguments for logging are left out.
    A pyasn1 Choice holds one alternative; reading another alternative by its name makes it the current one and drops
    the value (pyasn1, [Choice.setComponentByPosition]); so some of these checks change the message.  An element
    beyond the end of a list is made by pyasn1 and has no value. *)
From Coq Require Import String.
From Verif Require Import Prelude PyStr GenModel.
Open Scope string_scope.
Open Scope Z_scope.
Open Scope list_scope.
Local Notation length := List.length.

(** [certOrEncCert]: a certificate, an encrypted one ([true] for EnvelopedData), or no value. *)
Inductive coe := Plain (c : cert) | Enc (envd : bool) | Gone.
(** [CertifiedKeyPair]; a private key with [true] for EnvelopedData. *)
Record pair := { k_cert : coe; k_priv : option bool }.
Record resp := { p_id : Z; p_status : string; p_fail : bool; p_pair : option pair }.
Record rmsg := { b_name : string; b_pvno : Z; b_resps : list resp; b_pubs : option (list cert); b_extra : list cert }.

Record lib := {
  l_anchors : list cert -> result unit;            (* certificates_are_trustanchors *)
  l_chain : cert -> list cert -> result (list cert);
  l_openssl : list cert -> result unit
}.

(** [x["certificate"]] and [x["encryptedCert"]]: what is left of the Choice, and the value. *)
Definition read_cert (x : coe) : coe * option cert := match x with Plain c => (Plain c, Some c) | _ => (Gone, None) end.
Definition read_enc (x : coe) : coe * option bool := match x with Enc e => (Enc e, Some e) | _ => (Gone, None) end.

(** The message with another [certOrEncCert] in the response [i]. *)
Definition put (x : coe) (r : resp) : resp :=
  {| p_id := p_id r; p_status := p_status r; p_fail := p_fail r;
     p_pair := match p_pair r with Some k => Some {| k_cert := x; k_priv := k_priv k |} | None => None end |}.
Fixpoint update (l : list resp) (i : nat) (f : resp -> resp) : list resp :=
  match l, i with
  | [], _ => []
  | r :: l, O => f r :: l
  | r :: l, Datatypes.S i => r :: update l i f
  end.
Definition put_at (m : rmsg) (i : nat) (x : coe) : rmsg :=
  {| b_name := b_name m; b_pvno := b_pvno m; b_resps := update (b_resps m) i (put x); b_pubs := b_pubs m; b_extra := b_extra m |}.

Definition cert_bodies : list string := ["cp"; "kup"; "ip"; "ccp"].
(** resources/cmputils.py 3810-3843 (get_cert_response_from_pkimessage). *)
Definition get_resp (m : rmsg) (i : nat) : result (option resp) :=
  let! _ := guard (str_mem (b_name m) cert_bodies) EValueError in
  Ok (nth_error (b_resps m) i).
(** The [certOrEncCert] of a response; without a [certifiedKeyPair] it has no value. *)
Definition coe_of (r : option resp) : coe := match r with Some r => match p_pair r with Some k => k_cert k | None => Gone end | None => Gone end.
Definition priv_of (r : option resp) : option bool := match r with Some r => match p_pair r with Some k => k_priv k | None => None end | None => None end.
Definition is_value (x : coe) : bool := match x with Gone => false | _ => true end.
(** A [certifiedKeyPair] has a value iff its [certOrEncCert] has. *)
Definition has_pair (r : option resp) : bool := is_value (coe_of r).

(** resources/checkutils.py 67-96 (check_if_response_contains_private_key): on a copy; without a value in the response
    the copy cannot be encoded, which is not modelled. *)
Definition contains_private_key (m : rmsg) (i : nat) : result bool :=
  let! r := get_resp m i in
  Ok (has_pair r && match priv_of r with Some _ => true | None => false end).
(** resources/checkutils.py 99-130 (check_if_response_contains_encrypted_cert): on a copy. *)
Definition contains_encrypted_cert (m : rmsg) (i : nat) : result bool :=
  let! r := get_resp m i in
  Ok (match coe_of r with Enc _ => true | _ => false end).

(** resources/checkutils.py 134-191 (validate_certified_key_pair_structure): the message afterwards and the outcome. *)
Definition key_pair_structure (m : rmsg) (local : bool) (i : nat) : rmsg * result unit :=
  match get_resp m i with
  | Err e => (m, Err e)
  | Ok r =>
      let is := match priv_of r with Some _ => true | None => false end in
      if local && is then (m, Err EValueError)
      else if negb local && negb is then (m, Err EValueError)
      else if negb local && (match priv_of r with Some e => e && negb (b_pvno m =? 3) | None => false end) then (m, Err EValueError)
      else
        let x := read_enc (coe_of r) in
        (put_at m i (fst x), guard (negb (match snd x with Some e => e && negb (b_pvno m =? 3) | None => false end)) EValueError)
  end.

(** resources/cmputils.py 3867-3909 (get_cert_from_pkimessage), not for a krp. *)
Definition get_cert (m : rmsg) (i : nat) : rmsg * result cert :=
  match get_resp m i with
  | Err e => (m, Err e)
  | Ok r =>
      if negb (is_value (coe_of r)) then (m, Err EValueError) else
      let x := read_cert (coe_of r) in
      (put_at m i (fst x), match snd x with Some c => Ok c | None => Err EValueError end)
  end.

(** resources/checkutils.py 195-308 (validate_ca_msg_ca_pubs_field). *)
Definition ca_pubs_field (L : lib) (m : rmsg) (i : nat) (p10cr ir_as_cr : bool) : rmsg * result unit :=
  if has_pair (nth_error (b_resps m) i) then
    let x := get_cert m 0 in
    let m := fst x in
    (m, let! c := snd x in
        match b_pubs m with
        | None => Ok tt
        | Some ps =>
            let! _ := guard (negb ((String.eqb (b_name m) "cp" || ir_as_cr) && negb p10cr)) EValueError in
            let! _ := guard (negb (String.eqb (b_name m) "kup")) EValueError in
            let! _ := l_anchors L ps in
            let! ch := l_chain L c (ps ++ b_extra m) in
            let! _ := guard (negb (length ch =? 1)%nat) EValueError in
            l_openssl L ch
        end)
  else (m, match b_pubs m with Some _ => Err EValueError | None => Ok tt end).

(** resources/checkutils.py 1700-1734 (validate_certReqId). *)
Definition cert_req_id (m : rmsg) (i : nat) (p10cr : bool) : result unit :=
  let! r := get_resp m i in
  match r with
  | None => Err EPyAsn1
  | Some r => guard (p_id r =? (if p10cr then -1 else 0)) EValueError
  end.

(** resources/checkutils.py 1738-1837 (validate_ca_message_body): lines 1802 and 1815-1821 do not hand over the index and
    the kind of request. *)
Definition ca_body (L : lib) (m : rmsg) (local p10cr ir_as_cr : bool) (size : Z) (i : nat) : rmsg * result unit :=
  if negb (str_mem (b_name m) ["ip"; "kup"; "cp"; "ccp"]) then (m, Err EValueError)
  else if negb (Z.of_nat (length (b_resps m)) =? size) then (m, Err EValueError)
  else
    match cert_req_id m i p10cr with
    | Err e => (m, Err e)
    | Ok _ =>
        let r := nth_error (b_resps m) i in
        match nth_error (b_resps m) 0 with
        | None => (m, Err EPyAsn1)
        | Some s =>
            if str_mem (p_status s) ["accepted"; "grantedWithMods"] then
              if p_fail s then (m, Err EValueError)
              else
                let x := read_cert (coe_of r) in
                let m1 := put_at m i (fst x) in
                match snd x with
                | None => (m1, Err EValueError)
                | Some _ =>
                    let y := ca_pubs_field L m1 0 true ir_as_cr in
                    match snd y with
                    | Err e => (fst y, Err e)
                    | Ok _ => key_pair_structure (fst y) local i
                    end
                end
            else if String.eqb (p_status s) "rejection" then
              (m, let! _ := guard (negb (has_pair r)) EValueError in
                  guard (match b_pubs m with None => true | Some _ => false end) EValueError)
            else if String.eqb (p_status s) "waiting" then (m, Err ENotImplemented)
            else (m, Err EValueError)
        end
    end.

(** resources/checkutils.py 2244-2292 (validate_cross_certification_response); [ptype] is the kind of protection, [kem]
    says that it is KEM-based. *)
Definition cross_response (L : lib) (m : rmsg) (ptype : result string) (kem : bool) : rmsg * result unit :=
  if negb (String.eqb (b_name m) "ccp") then
    ({| b_name := "ccp"; b_pvno := b_pvno m; b_resps := []; b_pubs := None; b_extra := b_extra m |}, Err EValueError)
  else if negb (length (b_resps m) =? 1)%nat then (m, Err EValueError)
  else
    match ptype with
    | Err e => (m, Err e)
    | Ok t =>
        if String.eqb t "mac" || kem then (m, Err EValueError)
        else if (length (b_extra m) =? 0)%nat then (m, Err EBadMessageCheck)
        else ca_body L m true false false 1 0
    end.

(** resources/checkutils.py 1841-1916 (validate_pki_confirmation_message): bodies of the confirmation and the CA message,
    whether extraCerts are set, the kind of protection of the request (if given) and of the CA message, and the
    outcomes of the comparison of the protection (C37 and following). *)
Definition pki_confirmation (conf ca : string) (extra caching : bool) (req : option (result string)) (resp_type : result string)
  (mac sig : result unit) : result unit :=
  let! _ := guard (String.eqb conf "pkiconf") EValueError in
  let! _ := guard (extra || caching) EValueError in
  let! _ := guard (str_mem ca ["ip"; "cp"; "rp"; "kup"]) EValueError in
  let! t := match req with Some t => t | None => resp_type end in
  if String.eqb t "mac" then match req with None => Err EValueError | Some _ => mac end else sig.
