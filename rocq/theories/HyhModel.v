(** The handlers of the Mock CA for hybrid certificates (mock_ca/hybrid_handler.py lines 70-444, with
    pq_logic/hybrid_issuing.py lines 93-279 and mock_ca/ca_handler.py lines 1009-1110).

    Simplifications.  Certificates, keys and names are byte strings.  The database of revocations, the extraction of
    delta and related certificates, the builders of certificates and responses and the protection of messages are
    the fields of [rev] and [lib].  A message without [extraCerts] of which the first certificate is asked for is
    refused here by [EPyAsn1]; pyasn1 makes an empty certificate, of which no field can be read.  Reading a field of
    the alternative [ir] of a body that holds another one finds an element without value, and its [certReqId] is
    refused by [EPyAsn1].  The handlers of [certConf] and [rr] are the properties on the Mock CA and parameters here.
    Logging is left out. *)
From Coq Require Import String.
From Verif Require Import Prelude PyStr GenModel.
From Verif Require MigModel CAModel.
Open Scope string_scope.
Open Scope Z_scope.
Open Scope list_scope.
Local Notation length := List.length.

(** A request: the body, the certificates of [extraCerts], whether it asks for implicit confirmation, the algorithm of
    the protection if there is one, and the rest of it. *)
Record hreq := { h_body : string; h_extra : list cert; h_implicit : bool; h_alg : option string; h_rest : bytes }.

(** ** Revocation *)

Record rev := {
  v_looks : cert -> MigModel.looks;
  v_revoked : cert -> bool;                            (* RevocationHandler.is_revoked *)
  v_updated : cert -> bool;                            (* RevocationHandler.is_updated *)
  v_key_bad : bytes -> bytes -> bool;                  (* RevocationHandler.public_key_is_revoked *)
  v_delta : cert -> result cert;                       (* build_delta_cert_from_paired_cert *)
  v_delta_key : hreq -> result (bytes * bytes);        (* load_chameleon_csr_delta_key_and_sender *)
  v_form4 : cert -> result cert;                       (* convert_sun_hybrid_cert_to_target_form *)
  v_related : cert -> list cert -> result cert;        (* get_related_cert_from_list *)
  v_discovered : cert -> result (option cert)          (* get_cert_discovery_cert *)
}.

Definition first (q : hreq) : result cert := match h_extra q with c :: _ => Ok c | [] => Err EPyAsn1 end.

(** mock_ca/hybrid_handler.py 71-80 (is_chameleon_cert) *)
Definition is_chameleon (V : rev) (c : cert) : bool := MigModel.has (MigModel.k_exts (v_looks V c)) "id_ce_deltaCertificateDescriptor".

(** mock_ca/hybrid_handler.py 96-123 (is_revoked), of the class ChameleonHandler. *)
Definition cham_revoked (V : rev) (q : hreq) (both : bool) : result unit :=
  let! c := first q in
  let! d := v_delta V c in
  let! _ := guard (negb (v_revoked V c)) ECertRevoked in
  let! _ := guard (negb (v_updated V c)) ECertRevoked in
  if negb both then Ok tt else
  let! _ := guard (negb (v_revoked V d)) ECertRevoked in
  guard (negb (v_updated V d)) ECertRevoked.

(** mock_ca/hybrid_handler.py 125-133 (is_delta_key_revoked) *)
Definition delta_key_revoked (V : rev) (q : hreq) : result unit :=
  let! x := v_delta_key V q in
  guard (negb (v_key_bad V (fst x) (snd x))) EBadCertTemplate.

(** mock_ca/hybrid_handler.py 377-395 (is_revoked_for_request) *)
Definition revoked_for_request (V : rev) (q : hreq) (both : bool) : result unit :=
  let! c := first q in
  if is_chameleon V c then cham_revoked V q both else Ok tt.

(** mock_ca/hybrid_handler.py 397-444 (is_revoked_for_issuing).  The answers of the database that the code does not look
    at are left out; the names of the kinds are those in the code. *)
Definition revoked_for_issuing (V : rev) (q : hreq) (both : bool) : result unit :=
  let! c := first q in
  let! k := MigModel.is_hybrid (v_looks V c) in
  match k with
  | None => Ok tt
  | Some k =>
      if String.eqb k "chameleon" then
        let! _ := cham_revoked V q true in
        let! _ := v_delta_key V q in Ok tt
      else if String.eqb k "catalyst" then Ok tt
      else if String.eqb k "sun-hybrid" then
        let! f := v_form4 V c in
        guard (negb (v_revoked V f)) ECertRevoked
      else if String.eqb k "related_cert" then
        if both then let! _ := v_related V c (tl (h_extra q)) in Ok tt else Ok tt
      else if prefix "composite-sig" k then Ok tt
      else if String.eqb k "cert_discovery" then
        if both then
          let! r := v_discovered V c in
          match r with None => Err EBadMessageCheck | Some _ => Ok tt end
        else Ok tt
      else Err ENotImplemented
  end.

(** ** Certificates of the Sun hybrid scheme *)

Inductive key := Composite | HybKem | Other.
(** How a response is protected: by a MAC, by the traditional key, or by both keys. *)
Inductive how := ByMac (alg : string) | ByTrad | ByBoth.
(** A response: with an encrypted certificate or not, [extraCerts], implicit confirmation, and the rest. *)
Record out := { o_enc : bool; o_extra : list cert; o_implicit : bool; o_rest : bytes }.

Record lib := {
  l_ids : hreq -> result unit;                                        (* validate_cert_req_id_nums *)
  l_csr_sig : hreq -> result unit;                                    (* verify_csr_signature *)
  l_csr_cert : hreq -> Z -> bool -> result (cert * cert);             (* sun_csr_to_cert *)
  l_cp : hreq -> cert -> result out;                                  (* build_cp_from_p10cr *)
  l_key : hreq -> result key;                                         (* get_public_key_from_cert_req_msg *)
  l_pop : hreq -> result unit;                                        (* verify_sig_pop_for_pki_request *)
  l_cert : hreq -> Z -> string -> string -> bool -> result (cert * cert); (* sun_cert_template_to_cert *)
  l_answer : hreq -> cert -> result out;                              (* prepare_cert_response, build_ca_message *)
  l_encrypt : hreq -> cert -> result out;                             (* build_enc_cert_response, after 252 *)
  l_alt_key : cert -> result (option bytes);                          (* get_sun_hybrid_alt_pub_key *)
  l_alt_sig : cert -> result bytes;                                   (* extract_sun_hybrid_alt_sig *)
  l_kind : string -> result string;                                   (* ProtectedType.get_protection_type *)
  l_protect : how -> out -> result out;                               (* protect_pkimessage, protect_hybrid_pkimessage *)
  l_show : Z -> string;                                               (* the number in a format string *)
  l_rev_sig : hreq -> result unit;                                    (* verify_hybrid_pkimessage_protection *)
  l_conf : hreq -> result out;                                        (* CAHandler.process_cert_conf *)
  l_rr : hreq -> result out                                           (* CAHandler.process_rr *)
}.
(** The configuration: the certificate and the chain of the CA, the MAC that is used by default, the base of the
    locations, and whether the key is a composite one. *)
Record conf := { c_cert : cert; c_chain : list cert; c_mac : string; c_url : string; c_composite : bool }.

(** pq_logic/hybrid_issuing.py 217-279 (build_enc_cert_response), which always reads the alternative [ir]. *)
Definition enc_response (L : lib) (q : hreq) (c : cert) : result out :=
  if String.eqb (h_body q) "p10cr" then Err EValueError
  else if String.eqb (h_body q) "ir" then l_encrypt L q c else Err EPyAsn1.

(** pq_logic/hybrid_issuing.py 93-213 (build_sun_hybrid_cert_from_request), with the certificate of the CA: the response and
    the certificates in form 4 and form 1. *)
Definition build (L : lib) (q : hreq) (n : Z) (kl sl : string) (bad : bool) : result (out * (cert * cert)) :=
  if String.eqb (h_body q) "p10cr" then
    let! _ := l_csr_sig L q in
    let! x := l_csr_cert L q n bad in
    let! r := l_cp L q (fst x) in Ok (r, x)
  else if str_mem (h_body q) ["ir"; "cr"; "kur"; "crr"] then
    let! k := l_key L q in
    match k with
    | Composite =>
        let! _ := l_pop L q in
        let! x := l_cert L q n kl sl bad in
        let! r := l_answer L q (fst x) in Ok (r, x)
    | HybKem =>
        let! x := l_cert L q n kl sl false in
        let! r := enc_response L q (fst x) in Ok (r, x)
    | Other => Err EValueError
    end
  else Err EValueError.

(** mock_ca/operation_dbs.py 431-436 (SunHybridState): what is published for each serial number. *)
Record pub := { t_certs : list (Z * cert); t_keys : list (Z * bytes); t_sigs : list (Z * bytes) }.
Definition known (s : pub) (n : Z) : bool := existsb (Z.eqb n) (map fst (t_certs s)).
(** [d[n] = v] of a dictionary. *)
Definition set {A} (n : Z) (v : A) (d : list (Z * A)) : list (Z * A) := (n, v) :: filter (fun x => negb (fst x =? n)) d.

(** mock_ca/hybrid_handler.py 227-240 (_add_to_state) *)
Definition add_to_state (L : lib) (s : pub) (n : Z) (c1 : cert) : result pub :=
  let! k := l_alt_key L c1 in
  let! g := l_alt_sig L c1 in
  match k with
  | None => Err EException
  | Some k => Ok {| t_certs := set n c1 (t_certs s); t_keys := set n k (t_keys s); t_sigs := set n g (t_sigs s) |}
  end.

Definition extended (o : out) (l : list cert) : out :=
  {| o_enc := o_enc o; o_extra := o_extra o ++ l; o_implicit := o_implicit o; o_rest := o_rest o |}.
Definition confirmed (o : out) : out := {| o_enc := o_enc o; o_extra := o_extra o; o_implicit := true; o_rest := o_rest o |}.
Definition opt {A} (x : option A) : list A := match x with Some a => [a] | None => [] end.

(** mock_ca/prot_handler.py 242-253 (get_same_mac_protection) *)
Definition same_mac (C : conf) (a : string) : string :=
  if String.eqb a "id_PBMAC1" then "pbmac1" else if String.eqb a "id_PasswordBasedMac" then "password_based_mac" else c_mac C.

(** mock_ca/hybrid_handler.py 167-225 (sign_response), of the class SunHybridHandler. *)
Definition sign (L : lib) (C : conf) (q : hreq) (o : out) (both : bool) (second : option cert) : result out :=
  let! mac := match h_alg q with None => Ok None | Some a => let! k := l_kind L a in Ok (if String.eqb k "mac" then Some a else None) end in
  match mac with
  | Some a => l_protect L (ByMac (same_mac C a)) (extended o (opt second ++ c_chain C))
  | None => l_protect L (if both then ByBoth else ByTrad) (extended o (c_cert C :: opt second ++ tl (c_chain C)))
  end.

(** mock_ca/hybrid_handler.py 267-337 (process_request): the response, the certificate that is issued and the one that is to be
    confirmed; with the state after it. *)
Definition process_request (L : lib) (C : conf) (s : pub) (q : hreq) (n : Z) (bad : bool) : pub * result (out * option cert * option cert) :=
  match
    (let! _ := l_ids L q in
    let! x := build L q n (c_url C ++ "/pubkey/" ++ l_show L n)%string (c_url C ++ "/sig/" ++ l_show L n)%string bad in
    let! s1 := add_to_state L s n (snd (snd x)) in Ok (s1, x))
  with
  | Err e => (s, Err e)
  | Ok (s1, (o, (c4, c1))) =>
      (s1,
       if o_enc o then let! r := sign L C q o false None in Ok (r, None, Some c4)
       else if negb (h_implicit q) then let! r := sign L C q o false (Some c1) in Ok (r, None, Some c4)
       else let! r := sign L C q (confirmed o) false (Some c1) in Ok (r, Some c4, None))
  end.

(** ** The entry of the Mock CA for this scheme *)

(** mock_ca/ca_handler.py 1009-1018 (_get_serial_number): [r i] is the number that is drawn in the round [i], from [i] on with
    [k] rounds left. *)
Fixpoint draw (s : pub) (r : nat -> Z) (i k : nat) (last : option Z) : result Z :=
  match k with
  | O => match last with Some n => Ok n | None => Err EException end
  | Datatypes.S k => if known s (r i) then draw s r (Datatypes.S i) k (Some (r i)) else Ok (r i)
  end.
Definition serial_number (s : pub) (r : nat -> Z) : result Z := draw s r 0 100 None.

(** The state: what is published, the certificates with the flag of confirmation, and those that wait for a
    confirmation. *)
Record world := { w_pub : pub; w_certs : list (cert * bool); w_wait : list cert }.
Inductive reply := Answer (o : out) | Failure (e : exn).

(** mock_ca/ca_handler.py 1020-1041 (_after_request) *)
Definition after_request (w : world) (p : pub) (c : cert) (conf : bool) : world :=
  if conf then {| w_pub := p; w_certs := (c, true) :: w_certs w; w_wait := w_wait w |}
  else {| w_pub := p; w_certs := (c, false) :: w_certs w; w_wait := c :: w_wait w |}.
Definition published (w : world) (p : pub) : world := {| w_pub := p; w_certs := w_certs w; w_wait := w_wait w |}.

(** The checks before the body is looked at: mock_ca/ca_handler.py 1043-1062 (process_sun_hybrid).  [Some e] is an error message. *)
Definition admit_request (V : rev) (L : lib) (q : hreq) : result (option exn) :=
  let! c := first q in
  let! _ := MigModel.is_hybrid (v_looks V c) in
  let! a := match h_alg q with Some a => Ok a | None => Err EValueError end in
  let! k := l_kind L a in
  if String.eqb k "mac" then Ok None else
  match revoked_for_issuing V q false with
  | Ok _ => Ok None
  | Err ECertRevoked => Ok (Some ECertRevoked)
  | Err e => Err e
  end.

(** mock_ca/ca_handler.py 1064-1077 (process_sun_hybrid), for certConf and rr. *)
Definition other_body (V : rev) (L : lib) (C : conf) (q : hreq) : option (result reply) :=
  if String.eqb (h_body q) "certConf" then
    Some (let! o := l_conf L q in let! r := sign L C q o false None in Ok (Answer r))
  else if String.eqb (h_body q) "rr" then
    Some (let! _ := l_rev_sig L q in
          let! c := first q in
          let! f := v_form4 V c in
          let q' := {| h_body := h_body q; h_extra := f :: tl (h_extra q); h_implicit := h_implicit q; h_alg := h_alg q; h_rest := h_rest q |} in
          let! o := l_rr L q' in let! r := sign L C q' o false None in Ok (Answer r))
  else None.

(** mock_ca/ca_handler.py 1043-1110 (process_sun_hybrid) *)
Definition process (V : rev) (L : lib) (C : conf) (w : world) (q : hreq) (r : nat -> Z) (bad : bool) : world * result reply :=
  match admit_request V L q with
  | Err e => (w, Err e)
  | Ok (Some e) => (w, Ok (Failure e))
  | Ok None =>
      match other_body V L C q with
      | Some x => (w, x)
      | None =>
          match (let! n := serial_number (w_pub w) r in let! _ := guard (c_composite C) EException in Ok n) with
          | Err e => (w, Err e)
          | Ok n =>
              let x := process_request L C (w_pub w) q n bad in
              match snd x with
              | Err e => (published w (fst x), if CAModel.is_cmp e then Ok (Failure e) else Err e)
              | Ok (o, Some c, None) => (after_request w (fst x) c true, Ok (Answer o))
              | Ok (o, None, Some c) => (after_request w (fst x) c false, Ok (Answer o))
              | Ok _ => (published w (fst x), Err EException)
              end
          end
      end
  end.
