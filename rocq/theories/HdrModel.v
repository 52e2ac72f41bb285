(** Model of the client-side message checks: nonces, transactionIDs, times,
    generalInfo, sender fields, nested messages (resources/checkutils.py,
    resources/utils.py). *)
From Coq Require Import String.
From Verif Require Import Prelude.
Open Scope Z_scope.

(** ** Nonce keywords *)

(** [bin(x).count("1")] for a byte value: the number of set bits among the
    low [n] bits.  Models the inner expression of
    resources/utils.py 37-67 (nonces_must_be_diverse); [n] is 8 because the
    elements of a bytes object are below 256. *)
Fixpoint popcount (n : nat) (x : Z) : Z :=
  match n with
  | O => 0
  | S k => (if Z.odd x then 1 else 0) + popcount k (x / 2)
  end.

(** bytes.ljust(n, b"\x00") *)
Definition ljust (n : nat) (b : bytes) : bytes := b ++ repeat 0 (n - List.length b).

(** [sum(bin(n1 ^ n2).count("1") for n1, n2 in zip(a, b))] *)
Fixpoint hamming_zip (a b : bytes) : Z :=
  match a, b with
  | x :: a', y :: b' => popcount 8 (Z.lxor x y) + hamming_zip a' b'
  | _, _ => 0
  end.

Definition hamming (a b : bytes) : Z :=
  let m := Nat.max (List.length a) (List.length b) in
  hamming_zip (ljust m a) (ljust m b).

(** Models resources/utils.py 37-67 (nonces_must_be_diverse).  [combinations(l, 2)]
    is the list of pairs (l[i], l[j]), i < j, in lexicographic order.  The
    error report is not modelled. *)
Fixpoint combinations2 {A} (l : list A) : list (A * A) :=
  match l with
  | [] => []
  | x :: l' => List.map (fun y => (x, y)) l' ++ combinations2 l'
  end.

Definition nonces_must_be_diverse (nonces : list bytes) (minimal : Z) : result unit :=
  if forallb (fun p => minimal <=? hamming (fst p) (snd p)) (combinations2 nonces)
  then Ok tt else Err EValueError.

(** Models resources/utils.py 70-82 (nonces_must_be_unique): Counter and the
    entries whose count is above 1. *)
Definition count (x : bytes) (l : list bytes) : nat :=
  List.length (filter (bytes_eqb x) l).

Definition nonces_must_be_unique (nonces : list bytes) : result unit :=
  if existsb (fun x => Nat.ltb 1 (count x nonces)) nonces then Err EValueError else Ok tt.

(** Models resources/utils.py 105-115 (manipulate_first_byte). *)
Definition manipulate_first_byte (data : bytes) : result bytes :=
  match data with
  | [] => Err EIndexError
  | b :: r => Ok ((if b =? 0 then 1 else 0) :: r)
  end.

(** ** Messages *)

(** The alternatives of PKIBody, by the names [getName()] returns. *)
Inductive bname :=
| Bir | Bip | Bcr | Bcp | Bp10cr | Bpopdecc | Bpopdecr | Bkur | Bkup | Bkrr | Bkrp
| Brr | Brp | Bccr | Bccp | Bckuann | Bcann | Brann | Bcrlann | Bpkiconf | Bnested
| Bgenm | Bgenp | Berror | BcertConf | BpollReq | BpollRep.

Scheme Equality for bname.

(** infoType of a generalInfo entry; everything the checks do not look for is
    [OtherInfo]. *)
Inductive itype := ImplicitConfirm | ConfirmWaitTime | CertProfile | OtherInfo.
Scheme Equality for itype.

(** infoValue: a univ.Null object put there by the caller, encoded bytes, or
    not set. *)
Inductive ivalue := VNull | VBytes (b : bytes) | VUnset.

(** Distinguished names: an opaque DER value for comparison and the list of
    attributes (type, printed value), from the first RDN to the last. *)
Record name := { n_der : bytes; n_attrs : list (Z * string) }.

(** GeneralName: directoryName, rfc822Name (with its text),
    uniformResourceIdentifier, other alternatives. *)
Inductive gname :=
| GDir (n : name)
| GMail (s : string)
| GUri (s : string)
| GOther (k : Z) (b : bytes).

Record cert := { c_subject : name; c_ski : option bytes }.

(** The classes of protection algorithms of
    resources/suiteenums.py 213-249 (ProtectedType.get_protection_type); [PUnknown]
    is an OID outside all tables. *)
Inductive ptype := PKem | PDh | PMac | PTradSig | PStatefulSig | PPqSig | PCompSig | PUnknown.

(** A PKIHeader.  Absent OPTIONAL fields are [None].  Times are in
    microseconds since the epoch. *)
Record header := {
  h_pvno : Z;
  h_sender : gname;
  h_recipient : gname;
  h_time : option Z;
  h_palg : option ptype;
  h_kid : option bytes;
  h_tx : option bytes;
  h_snonce : option bytes;
  h_rnonce : option bytes;
  h_ginfo : option (list (itype * ivalue))
}.

(** A PKIMessage: header, body alternative, the messages of a nested body
    (empty for the other alternatives), protection value, extraCerts. *)
Inductive msg := Msg (h : header) (b : bname) (inner : list msg)
                     (prot : option bytes) (certs : option (list cert)).

Definition hdr (m : msg) := let 'Msg h _ _ _ _ := m in h.
Definition body (m : msg) := let 'Msg _ b _ _ _ := m in b.
Definition inner (m : msg) := let 'Msg _ _ i _ _ := m in i.
Definition prot (m : msg) := let 'Msg _ _ _ p _ := m in p.
Definition certs (m : msg) := let 'Msg _ _ _ _ c := m in c.

(** [.asOctets()] of a field that is not set raises PyAsn1Error. *)
Definition octets (o : option bytes) : result bytes :=
  match o with Some b => Ok b | None => Err EPyAsn1 end.

Definition is_value {A} (o : option A) : bool := match o with Some _ => true | None => false end.

(** What the checks take from outside: the clock, the decoder of
    GeneralizedTime (value and rest), the UTF-8 decoder, the display names of
    attribute types, the object identifier of commonName, and what pyasn1
    answers for [extraCerts[0]] when extraCerts has no element. *)
Record env := {
  e_now : Z;
  e_dec_time : bytes -> option (Z * bytes);
  e_utf8 : bytes -> option string;
  e_attr_key : Z -> option string;
  e_cn : Z;
  e_no_cert : result cert
}.

(** ** Transaction and nonce checks *)

(** Models resources/checkutils.py 1483-1521 (validate_transaction_id). *)
Definition validate_transaction_id (response : msg) (request : option msg) : result unit :=
  let! _ := guard (is_value (h_tx (hdr response))) EBadDataFormat in
  let! tx := octets (h_tx (hdr response)) in
  let! _ := guard (Nat.eqb (List.length tx) 16) EBadRequest in
  match request with
  | None => Ok tt
  | Some r =>
      let! ours := octets (h_tx (hdr r)) in
      guard (bytes_eqb ours tx) EBadRequest
  end.

(** Models resources/checkutils.py 1430-1479 (validate_sender_and_recipient_nonce);
    [nonce_sec] after str_to_int. *)
Definition validate_sender_and_recipient_nonce (response request : msg) (nonce_sec : Z) : result unit :=
  let! _ := guard (is_value (h_rnonce (hdr response))) EBadRecipientNonce in
  let! _ := guard (is_value (h_snonce (hdr response))) EBadSenderNonce in
  let! recip := octets (h_rnonce (hdr response)) in
  let sec := Z.max 128 nonce_sec in
  let! _ := guard (sec / 8 <=? Z.of_nat (List.length recip)) EBadRecipientNonce in
  let! sender := octets (h_snonce (hdr request)) in
  let! recip' := octets (h_rnonce (hdr response)) in
  let! _ := guard (bytes_eqb sender recip') EBadRecipientNonce in
  let! rs := octets (h_snonce (hdr response)) in
  guard (sec / 8 <=? Z.of_nat (List.length rs)) EBadSenderNonce.

(** Equality of two GeneralName objects: same alternative, same content. *)
Definition gname_eqb (a b : gname) : bool :=
  match a, b with
  | GDir x, GDir y => bytes_eqb (n_der x) (n_der y)
  | GMail x, GMail y => String.eqb x y
  | GUri x, GUri y => String.eqb x y
  | GOther i x, GOther j y => (i =? j) && bytes_eqb x y
  | _, _ => false
  end.

(** Models resources/checkutils.py 1524-1566 (validate_sender_and_recipient). *)
Definition validate_sender_and_recipient (response request : msg) (must_be_eq : bool) : result unit :=
  let! _ := validate_transaction_id response (Some request) in
  let! _ := validate_sender_and_recipient_nonce response request 128 in
  if gname_eqb (h_recipient (hdr response)) (h_sender (hdr request)) then Ok tt
  else if must_be_eq then Err EValueError else Ok tt.

(** Models resources/checkutils.py 2295-2340 (_validate_cert_conf_nonces_and_tx_id). *)
Definition validate_cert_conf_nonces_and_tx_id (request response : msg) (check_length : bool) : result unit :=
  let q := hdr request in let s := hdr response in
  let! _ := guard (bname_beq (body request) BcertConf) EValueError in
  let! _ := guard (is_value (h_snonce q)) EBadSenderNonce in
  let! _ := guard (is_value (h_tx q)) EBadDataFormat in
  let! _ := guard (is_value (h_rnonce q)) EBadRecipientNonce in
  let! sn := octets (h_snonce q) in
  let! tx := octets (h_tx q) in
  let! rn := octets (h_rnonce q) in
  let! _ :=
    if check_length then
      let! _ := guard (Nat.eqb (List.length tx) 16) EBadRequest in
      let! _ := guard (Nat.eqb (List.length sn) 16) EBadSenderNonce in
      guard (Nat.eqb (List.length rn) 16) EBadRecipientNonce
    else Ok tt in
  let! rsn := octets (h_snonce s) in
  let! _ := guard (bytes_eqb rn rsn) EBadRecipientNonce in
  let! rtx := octets (h_tx s) in
  let! _ := guard (bytes_eqb tx rtx) EBadRequest in
  let! rrn := octets (h_rnonce s) in
  guard (bytes_eqb sn rrn) EBadSenderNonce.

(** Models resources/checkutils.py 2343-2389 (validate_request_message_nonces_and_tx_id). *)
Definition validate_request_message_nonces_and_tx_id (request : msg) (response : option msg) : result unit :=
  let q := hdr request in
  if bname_beq (body request) Bnested then Err ENotImplemented
  else if bname_beq (body request) BcertConf then
    match response with
    | None => Err EValueError
    | Some r => validate_cert_conf_nonces_and_tx_id request r true
    end
  else
    let! _ := guard (is_value (h_snonce q)) EBadSenderNonce in
    let! sn := octets (h_snonce q) in
    let! _ := guard (is_value (h_tx q)) EBadDataFormat in
    let! tx := octets (h_tx q) in
    let! _ := guard (negb (is_value (h_rnonce q))) EBadRecipientNonce in
    let! _ := guard (Nat.eqb (List.length tx) 16) EBadRequest in
    guard (Nat.eqb (List.length sn) 16) EBadSenderNonce.

(** ** Nested messages *)

(** Models resources/checkutils.py 2055-2057 (_is_unique): [len(lst) == len(set(lst))]. *)
Fixpoint dedup (l : list bytes) : list bytes :=
  match l with
  | [] => []
  | x :: l' => if mem x l' then dedup l' else x :: dedup l'
  end.

Definition is_unique (l : list bytes) : bool :=
  Nat.eqb (List.length l) (List.length (dedup l)).

(** The loop of resources/checkutils.py 2060-2142 (validate_nested_message_unique_nonces_and_ids)
    over the nested messages: the lists of transactionIDs, senderNonces and
    recipNonces. *)
Fixpoint collect_nested (l : list msg) (check_recip : bool)
  : result (list bytes * list bytes * list bytes) :=
  match l with
  | [] => Ok ([], [], [])
  | m :: l' =>
      let h := hdr m in
      let! _ := guard (is_value (h_tx h)) EBadDataFormat in
      let! _ := guard (is_value (h_snonce h)) EBadSenderNonce in
      let! _ := guard (negb (negb (is_value (h_rnonce h)) && check_recip)) EBadRecipientNonce in
      let! tx := octets (h_tx h) in
      let! sn := octets (h_snonce h) in
      let! rn := if check_recip then
                   let! r := octets (h_rnonce h) in Ok [r]
                 else Ok [] in
      let! (txs, sns, rns) := collect_nested l' check_recip in
      Ok (tx :: txs, sn :: sns, rn ++ rns)
  end.

Definition all_len16 (l : list bytes) : bool :=
  forallb (fun b => Nat.eqb (List.length b) 16) l.

(** Models resources/checkutils.py 2060-2142 (validate_nested_message_unique_nonces_and_ids). *)
Definition validate_nested_unique (m : msg)
    (check_tx check_sender check_recip check_length : bool) : result unit :=
  let h := hdr m in
  let! _ := guard (bname_beq (body m) Bnested) EValueError in
  let! _ := guard (is_value (h_tx h)) EBadDataFormat in
  let! _ := guard (is_value (h_snonce h)) EBadSenderNonce in
  let! sn := octets (h_snonce h) in
  let! tx := octets (h_tx h) in
  let! rn0 :=
    match h_rnonce h with
    | None => if check_recip then Err EBadRecipientNonce else Ok []
    | Some r => Ok [r]
    end in
  let! (txs, sns, rns) := collect_nested (inner m) check_recip in
  let ids := tx :: txs in
  let snonces := sn :: sns in
  let rnonces := rn0 ++ rns in
  let! _ := guard (negb (check_tx && negb (is_unique ids))) EBadRequest in
  let! _ := guard (negb (check_sender && negb (is_unique snonces))) EBadSenderNonce in
  let! _ := guard (negb (check_recip && negb (is_unique rnonces))) EBadRecipientNonce in
  if check_length then
    let! _ := guard (all_len16 ids) EBadRequest in
    let! _ := guard (all_len16 snonces) EBadSenderNonce in
    guard (all_len16 rnonces) EBadRecipientNonce
  else Ok tt.

(** Models resources/checkutils.py 2145-2241 (validate_add_protection_tx_id_and_nonces). *)
Definition validate_add_protection (request : msg) (check_length : bool) : result unit :=
  let h := hdr request in
  match inner request with
  | [im] =>
      let ih := hdr im in
      let! _ := guard (is_value (h_snonce h)) EBadSenderNonce in
      let! _ := guard (is_value (h_tx h)) EBadDataFormat in
      let! outer_tx := octets (h_tx h) in
      let! _ := guard (is_value (h_tx ih)) EBadDataFormat in
      let! inner_tx := octets (h_tx ih) in
      let! _ := guard (bytes_eqb inner_tx outer_tx) EBadRequest in
      let! outer_sn := octets (h_snonce h) in
      let! _ := guard (is_value (h_snonce ih)) EBadSenderNonce in
      let! inner_sn := octets (h_snonce ih) in
      let! _ := guard (bytes_eqb inner_sn outer_sn) EBadSenderNonce in
      let! rn :=
        if bname_beq (body im) BcertConf then
          let! _ := guard (is_value (h_rnonce h)) EBadRecipientNonce in
          let! _ := guard (is_value (h_rnonce ih)) EBadRecipientNonce in
          let! o := octets (h_rnonce h) in
          let! i := octets (h_rnonce ih) in
          let! _ := guard (bytes_eqb i o) EBadRecipientNonce in
          Ok (Some o)
        else
          let! _ := guard (negb (is_value (h_rnonce ih))) EBadRecipientNonce in
          let! _ := guard (negb (is_value (h_rnonce h))) EBadRecipientNonce in
          Ok None in
      if check_length then
        let! _ := guard (Nat.eqb (List.length inner_tx) 16) EBadRequest in
        let! _ := guard (Nat.eqb (List.length outer_sn) 16) EBadSenderNonce in
        match rn with
        | Some r => guard (Nat.eqb (List.length r) 16) EBadRecipientNonce
        | None => Ok tt
        end
      else Ok tt
  | _ => Err EValueError
  end.

(** A Python dict as an association list: [dict_set] keeps the position of a
    key that is already there, as CPython does. *)
Section Dict.
  Context {K V : Type} (keq : K -> K -> bool).
  Fixpoint dict_get (k : K) (d : list (K * V)) : option V :=
    match d with
    | [] => None
    | (k', v) :: d' => if keq k k' then Some v else dict_get k d'
    end.
  Fixpoint dict_set (k : K) (v : V) (d : list (K * V)) : list (K * V) :=
    match d with
    | [] => [(k, v)]
    | (k', v') :: d' => if keq k k' then (k', v) :: d' else (k', v') :: dict_set k v d'
    end.
End Dict.

Definition pair_eqb (a b : bytes * bytes) : bool :=
  bytes_eqb (fst a) (fst b) && bytes_eqb (snd a) (snd b).

(** First loop of resources/checkutils.py 1992-2052 (validate_ids_and_nonces_for_nested_response). *)
Fixpoint resp_pairs (l : list msg) (d : list ((bytes * bytes) * bname))
  : result (list ((bytes * bytes) * bname)) :=
  match l with
  | [] => Ok d
  | m :: l' =>
      let! rn := octets (h_rnonce (hdr m)) in
      let! tx := octets (h_tx (hdr m)) in
      resp_pairs l' (dict_set pair_eqb (rn, tx) (body m) d)
  end.

(** Second loop of the same function. *)
Fixpoint req_pairs (l : list msg) (d : list (bname * (bytes * bytes)))
  : result (list (bname * (bytes * bytes))) :=
  match l with
  | [] => Ok d
  | m :: l' =>
      let! sn := octets (h_snonce (hdr m)) in
      let! tx := octets (h_tx (hdr m)) in
      req_pairs l' (dict_set bname_beq (body m) (sn, tx) d)
  end.

(** The dict allowed_answer_bodies of the same function. *)
Definition allowed_answer_bodies (b : bname) : option bname :=
  match b with
  | Bp10cr | Bcr => Some Bcp
  | Bgenm => Some Bgenp
  | Bkur => Some Bkup
  | Bir => Some Bip
  | _ => None
  end.

(** Third loop of the same function. *)
Fixpoint check_pairs (d : list (bname * (bytes * bytes)))
    (resp : list ((bytes * bytes) * bname)) : result unit :=
  match d with
  | [] => Ok tt
  | (b, k) :: d' =>
      match dict_get pair_eqb k resp with
      | None => Err EValueError
      | Some rb =>
          if bname_beq rb Berror || bname_beq rb BpollReq then check_pairs d' resp
          else match allowed_answer_bodies b with
               | None => Err EKeyError
               | Some e => if bname_beq e rb then check_pairs d' resp else Err EValueError
               end
      end
  end.

(** Models resources/checkutils.py 1992-2052 (validate_ids_and_nonces_for_nested_response). *)
Definition validate_nested_response (request response : msg) : result unit :=
  let! _ := validate_sender_and_recipient response request false in
  let! _ := guard (bname_beq (body response) Bnested) EValueError in
  let! _ := guard (Nat.eqb (List.length (inner response)) (List.length (inner request))) EValueError in
  let! rp := resp_pairs (inner response) [] in
  let! qp := req_pairs (inner request) [] in
  check_pairs qp rp.

(** The dict correct_body_types of resources/checkutils.py 2443-2506 (validate_cmp_body_types). *)
Definition correct_body_types (b : bname) : option bname :=
  match b with
  | Bir => Some Bip
  | Bcr => Some Bcp
  | Bkur => Some Bkup
  | Bp10cr => Some Bcp
  | Bgenm => Some Bgenp
  | Bccr => Some Bccp
  | Brr => Some Brp
  | Bnested => Some Bnested
  | _ => None
  end.

(** The final comparison of resources/checkutils.py 2443-2506 (validate_cmp_body_types). *)
Definition body_type_ok (expected got : bname) (error : option bool) : bool :=
  match error with
  | None => bname_beq got expected || bname_beq got Berror
  | Some false => bname_beq got expected
  | Some true => bname_beq got Berror
  end.

(** Models resources/checkutils.py 2443-2506 (validate_cmp_body_types) and
    resources/checkutils.py 2392-2439 (_validate_body_types_nested) (BadValueBehavior is
    a subclass of CMPTestSuiteError; it is modelled as [ECMPTestSuite]).  The
    function [pairs] is the loop over the batched messages. *)
Fixpoint validate_cmp_body_types (request response : msg) (error : option bool) {struct request} : result unit :=
  let '(Msg _ qb qs _ _) := request in
  match correct_body_types qb with
  | None => Err EValueError
  | Some expected =>
      if bname_beq qb Bnested then
        match qs with
        | [q] =>
            if bname_beq (body response) Bnested then Err EValueError
            else validate_cmp_body_types q response error
        | _ =>
            if bname_beq (body response) Berror then
              match error with Some false => Err EValueError | _ => Ok tt end
            else if negb (bname_beq (body response) Bnested) then Err EValueError
            else if negb (Nat.eqb (List.length (inner response)) (List.length qs)) then Err ECMPTestSuite
            else
              (fix pairs (ql rl : list msg) {struct ql} : result unit :=
                 match ql, rl with
                 | [], _ => Ok tt
                 | q :: ql', r :: rl' =>
                     let! _ := validate_cmp_body_types q r error in pairs ql' rl'
                 | _ :: _, [] => Err EIndexError
                 end) qs (inner response)
        end
      else if body_type_ok expected (body response) error then Ok tt else Err EValueError
  end.

(** ** generalInfo *)

(** Models resources/cmputils.py 3971-3983 (get_value_from_seq_of_info_value_field). *)
Fixpoint info_value (t : itype) (l : list (itype * ivalue)) : option ivalue :=
  match l with
  | [] => None
  | (t', v) :: l' => if itype_beq t t' then Some v else info_value t l'
  end.

Definition ginfo (m : msg) : list (itype * ivalue) :=
  match h_ginfo (hdr m) with None => [] | Some l => l end.

(** [value not in [univ.Null(""), b"\x05\x00"]]: comparing an unset value
    raises PyAsn1Error. *)
Definition is_null (v : ivalue) : result bool :=
  match v with
  | VNull => Ok true
  | VBytes b => Ok (bytes_eqb b [5; 0])
  | VUnset => Err EPyAsn1
  end.

Definition implicit_confirm_body (b : bname) : bool :=
  match b with Bip | Bcp | Bkup | Bir | Bcr | Bkur | Bp10cr => true | _ => false end.

(** Models resources/checkutils.py 1109-1154 (check_implicitconfirm_in_generalinfo). *)
Definition check_implicitconfirm (m : msg) : result unit :=
  match h_ginfo (hdr m) with
  | None => Ok tt
  | Some l =>
      match info_value ImplicitConfirm l with
      | None => Ok tt
      | Some v =>
          let! _ := guard (implicit_confirm_body (body m)) EBadRequest in
          let! n := is_null v in
          guard n EBadRequest
      end
  end.

(** Models resources/checkutils.py 1158-1217 (check_confirmwaittime_in_generalinfo). *)
Definition check_confirmwaittime (e : env) (m : msg) : result unit :=
  match h_ginfo (hdr m) with
  | None => Ok tt
  | Some l =>
      match info_value ConfirmWaitTime l with
      | None => Ok tt
      | Some v =>
          match v with
          | VBytes b =>
              match e_dec_time e b with
              | None => Err EBadDataFormat
              | Some (t, rest) =>
                  let! _ := guard (bytes_eqb rest []) EBadAsn1Data in
                  let! _ := guard (0 <? t - e_now e) EValueError in
                  guard (negb (is_value (info_value ImplicitConfirm l))) EBadRequest
              end
          | _ => Err EBadDataFormat
          end
      end
  end.

Definition cert_profile_body (b : bname) : bool :=
  match b with Bir | Bcr | Bkur | Bp10cr | Bgenm => true | _ => false end.

(** Models resources/checkutils.py 1301-1328 (check_certprofile_in_generalinfo). *)
Definition check_certprofile (m : msg) : result unit :=
  match h_ginfo (hdr m) with
  | None => Ok tt
  | Some l =>
      if is_value (info_value CertProfile l) then guard (cert_profile_body (body m)) EBadRequest
      else Ok tt
  end.

(** Models resources/checkutils.py 1334-1355 (check_generalinfo_field). *)
Definition check_generalinfo (e : env) (m : msg) : result unit :=
  let! _ := check_implicitconfirm m in
  let! _ := check_confirmwaittime e m in
  check_certprofile m.

(** Models resources/checkutils.py 1220-1237 (_get_cert_profile_msg_size) for the
    message whose ir/cr/kur/genm body has [n] entries. *)
Definition cert_profile_msg_size (b : bname) (n : nat) : result nat :=
  match b with
  | Bp10cr => Ok 1%nat
  | Bir | Bcr | Bkur | Bgenm => Ok n
  | _ => Err EBadRequest
  end.

(** Models resources/checkutils.py 1241-1297 (validate_cert_profile_for_ca).  [profiles]
    is the decoded certProfile value ([None]: absent) and [rest] says whether
    bytes were left; [n] the number of entries of the body. *)
Definition validate_cert_profile_for_ca (m : msg) (n : nat) (profiles : option (list string))
    (rest : bool) (known : option (list string)) : result unit :=
  match h_ginfo (hdr m) with
  | None => Ok tt
  | Some _ =>
      match profiles with
      | None => Ok tt
      | Some ps =>
          let! _ := guard (cert_profile_body (body m)) EBadRequest in
          let! _ := guard (negb rest) EBadAsn1Data in
          let! _ := guard (negb (Nat.eqb (List.length ps) 0)) EBadRequest in
          let! size := cert_profile_msg_size (body m) n in
          let! _ := guard (negb (Nat.eqb (List.length ps) size)) EBadRequest in
          match known with
          | None => Ok tt
          | Some k => guard (forallb (fun p => existsb (String.eqb p) (k ++ [EmptyString])) ps) EBadRequest
          end
      end
  end.

(** ** Times *)

Definition second : Z := 1000000.

(** Models resources/checkutils.py 1358-1379 (_check_message_time_for_request). *)
Definition check_message_time_for_request (now time interval : Z) : result unit :=
  let diff := now - time in
  let! _ := guard (0 <=? diff) EBadTime in
  guard (diff <=? interval * second) EBadTime.

(** Models resources/checkutils.py 1383-1427 (check_message_time_field); an absent
    messageTime raises when it is converted to a datetime. *)
Definition check_message_time_field (e : env) (m : msg) (interval : option Z) (request_time : option Z)
  : result unit :=
  let! _ :=
    guard (negb (is_value (info_value ConfirmWaitTime (ginfo m)) && negb (is_value (h_time (hdr m))))) EBadTime in
  match interval with
  | None => Ok tt
  | Some i =>
      match h_time (hdr m) with
      | None => Err EPyAsn1
      | Some t =>
          match request_time with
          | None => check_message_time_for_request (e_now e) t i
          | Some rt => guard (t - rt <=? i * second) EBadTime
          end
      end
  end.

(** ** Sender fields *)

(** Models resources/utils.py 407-451 (get_openssl_name_notation) with
    [return_dict=False]: [keep] selects the attribute types. *)
Fixpoint name_notation_from (key : Z -> option string) (keep : Z -> bool)
    (acc : option string) (l : list (Z * string)) : option string :=
  match l with
  | [] => acc
  | (t, v) :: l' =>
      if keep t then
        let k := match key t with Some k => k | None => "None"%string end in
        let item := (k ++ "=" ++ v)%string in
        name_notation_from key keep
          (Some (match acc with None => item | Some a => (a ++ "," ++ item)%string end)) l'
      else name_notation_from key keep acc l'
  end.

Definition name_notation (key : Z -> option string) (keep : Z -> bool) (n : name) : string :=
  match name_notation_from key keep None (n_attrs n) with
  | None => "NULL-DN"%string
  | Some s => s
  end.

Definition full_notation (e : env) (n : name) : string :=
  name_notation (e_attr_key e) (fun t => is_value (e_attr_key e t)) n.

Definition cn_notation (e : env) (n : name) : string :=
  name_notation (e_attr_key e) (fun t => t =? e_cn e) n.

(** Models resources/checkutils.py 311-360 (check_is_protection_present) with
    [lwcmp=False]. *)
Definition check_is_protection_present (m : msg) (must : bool) : result bool :=
  match prot m, h_palg (hdr m) with
  | None, None => if must then Err EBadMessageCheck else Ok false
  | Some _, None => Err EBadMessageCheck
  | None, Some _ => Err EBadMessageCheck
  | Some _, Some _ => Ok true
  end.

(** Models resources/suiteenums.py 213-249 (ProtectedType.get_protection_type). *)
Definition get_protection_type (m : msg) : result ptype :=
  match h_palg (hdr m) with
  | None => Err EValueError
  | Some PUnknown => Err EUnknownOID
  | Some p => Ok p
  end.

(** [protection_type in [ProtectedType.MAC, ProtectedType.KEM]] *)
Definition is_mac_or_kem (p : ptype) : bool :=
  match p with PMac | PKem => true | _ => false end.

(** Models resources/checkutils.py 363-389 (_verify_sender_field_for_mac): the result
    of get_openssl_name_notation is compared with None, which it never is. *)
Definition verify_sender_field_for_mac (sender : gname) (allow_failure : bool) : result unit :=
  match sender with
  | GDir _ => Ok tt
  | _ => if allow_failure then Ok tt else Err EBadMessageCheck
  end.

(** [pki_message["extraCerts"][0]] *)
Definition first_cert (e : env) (m : msg) : result cert :=
  match certs m with
  | Some (c :: _) => Ok c
  | _ => e_no_cert e
  end.

(** Models resources/compareutils.py 447-497 (compare_general_name_and_name) with
    [url=None]. *)
Definition compare_general_name_and_name (e : env) (g : gname) (n : name) : result bool :=
  match g with
  | GDir d => Ok (bytes_eqb (n_der d) (n_der n))
  | GMail s => Ok (String.eqb (full_notation e n) s)
  | GUri _ => Err EValueError
  | GOther _ _ => Err ENotImplemented
  end.

(** Models resources/checkutils.py 393-460 (check_sender_cmp_protection). *)
Definition check_sender_cmp_protection (e : env) (m : msg) (must allow_failure : bool) : result unit :=
  let! _ := check_is_protection_present m must in
  if negb (is_value (h_palg (hdr m))) then Ok tt
  else
    let! p := get_protection_type m in
    if is_mac_or_kem p then verify_sender_field_for_mac (h_sender (hdr m)) allow_failure
    else
      let! c := first_cert e m in
      let! same := compare_general_name_and_name e (h_sender (hdr m)) (c_subject c) in
      if same then Ok tt else if allow_failure then Ok tt else Err EBadMessageCheck.

(** str.removeprefix *)
Definition removeprefix (p s : string) : string :=
  if String.prefix p s then String.substring (String.length p) (String.length s - String.length p) s
  else s.

(** Models resources/checkutils.py 577-637 (_verify_senderkid_for_mac) (the sender is
    always present). *)
Definition verify_senderkid_for_mac (e : env) (m : msg) (allow : bool) : result unit :=
  match h_sender (hdr m) with
  | GDir n =>
      let! kid := octets (h_kid (hdr m)) in
      match e_utf8 e kid with
      | None => Err EBadMessageCheck
      | Some s =>
          let cn := cn_notation e n in
          if String.eqb cn EmptyString then
            (if allow then Ok tt else Err EBadMessageCheck)
          else if String.eqb (removeprefix "CN=" s) (removeprefix "CN=" cn) then Ok tt
          else if allow then Ok tt else Err EBadMessageCheck
      end
  | _ => if allow then Ok tt else Err EBadMessageCheck
  end.

(** Models resources/checkutils.py 644-708 (validate_senderkid_for_cmp_protection);
    [pcert] is the argument protection_cert. *)
Definition validate_senderkid (e : env) (m : msg) (pcert : option cert) (must allow_mac : bool) : result unit :=
  let! p := check_is_protection_present m false in
  if negb p then (if must then Err EBadMessageCheck else Ok tt)
  else
    let! _ := guard (is_value (h_kid (hdr m))) EBadMessageCheck in
    let! c := match pcert with Some c => Ok c | None => first_cert e m end in
    let! t := get_protection_type m in
    let! kid := octets (h_kid (hdr m)) in
    if is_mac_or_kem t then verify_senderkid_for_mac e m allow_mac
    else match c_ski c with
         | None => Ok tt
         | Some ski => guard (bytes_eqb ski kid) EBadMessageCheck
         end.

(** ** The header check *)

(** Models resources/checkutils.py 1570-1650 (validate_pkimessage_header); the
    request's messageTime is used only when it is set. *)
Definition validate_pkimessage_header (e : env) (response : msg) (request : option msg)
    (protection : bool) (interval : option Z) (allow_failure_sender : bool) : result unit :=
  let! _ := guard ((h_pvno (hdr response) =? 2) || (h_pvno (hdr response) =? 3)) EValueError in
  let! _ := check_is_protection_present response protection in
  let! _ := check_sender_cmp_protection e response protection allow_failure_sender in
  let! _ := validate_senderkid e response None protection allow_failure_sender in
  let! _ := check_generalinfo e response in
  let request_time := match request with Some r => h_time (hdr r) | None => None end in
  let! _ := check_message_time_field e response interval request_time in
  match request with
  | None => Ok tt
  | Some r => validate_sender_and_recipient response r false
  end.

(** Models resources/checkutils.py 2510-2540 (validate_wrong_integrity). *)
Definition validate_wrong_integrity (m : msg) : result unit :=
  match body m with
  | Bccr | Bkur | Brr | Bnested =>
      let! _ := guard (is_value (h_palg (hdr m))) EBadMessageCheck in
      let! p := get_protection_type m in
      match p with
      | PMac => Err EBodyRelevant
      | PDh | PKem => if bname_beq (body m) Bccr then Err EBodyRelevant else Ok tt
      | _ => Ok tt
      end
  | _ => Ok tt
  end.
