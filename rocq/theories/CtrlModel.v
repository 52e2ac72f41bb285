(** Model of the controls of certificate requests (resources/cmputils.py, resources/ca_ra_utils.py) and of the one-time
    registration token of the mock CA (mock_ca/cert_req_handler.py). *)
From Coq Require Import String Ascii.
From Verif Require Import Prelude PyStr CompLoadModel HdrModel ProtTab ProtModel PopModel.
Open Scope string_scope.
Open Scope Z_scope.
Local Notation length := List.length.

(** PKIArchiveOptions: an encrypted private key, the parameters of the key generation, or the flag to archive a
    generated key. *)
Inductive archive := AEncrypted | AParams (b : bytes) | AFlag.
(** PKIPublicationInfo: the action and, for each SinglePubInfo, its method and whether it has a location. *)
Record pubinfo := { pi_action : Z; pi_infos : option (list (Z * bool)) }.
(** What the validation calls: the decoders of the values of controls (a text is what prettyPrint makes of it), the
    name of a key (keyutils.get_key_name), and the public key of the key generated from a seed (keyutils.generate_key). *)
Record ctx := {
  x_archive : bytes -> option (archive * bytes);
  x_publication : bytes -> option (pubinfo * bytes);
  x_text : bytes -> option (string * bytes);
  x_name : pub -> result unit;
  x_generate : pub -> bytes -> result key
}.
(** Models resources/cmputils.py 920-956 (_validate_key_gen_params) with a template. *)
Definition validate_key_gen (E : env) (X : ctx) (t : template) (b : bytes) : result unit :=
  let! p := tmpl_key E true t in
  match p with
  | None => Err EBadCertTemplate
  | Some pk =>
      let! _ := x_name X pk in
      let! k := catch is_value_error EBadAsn1Data (x_generate X pk b) in
      guard (match pk with Pub k' => e_same E k k' | PubDh => false end) EBadCertTemplate
  end.
(** Models resources/cmputils.py 959-1019 (validate_archive_options). *)
Definition validate_archive (E : env) (X : ctx) (l : list control) (must : bool) (t : template) : result unit :=
  match first_of "id_regCtrl_pkiArchiveOptions" l with
  | None => if must then Err EValueError else Ok tt
  | Some der =>
      match x_archive X der with
      | None => Err EPyAsn1
      | Some (_, _ :: _) => Err EBadAsn1Data
      | Some (AParams b, []) => validate_key_gen E X t b
      | Some (_, []) => Ok tt
      end
  end.
(** Models resources/cmputils.py 1059-1115 (validate_reg_token_control) and resources/cmputils.py 1150-1204
    (validate_authenticator_control), which differ in the type of the control only. *)
Definition validate_text (X : ctx) (ty : string) (l : list control) (must : bool) (expected : option string) : result (option string) :=
  match first_of ty l with
  | None => if must then Err EValueError else Ok None
  | Some der =>
      let! _ := guard (unique_types l) EBadRequest in
      match x_text X der with
      | None => Err EBadAsn1Data
      | Some (_, _ :: _) => Err EBadAsn1Data
      | Some (s, []) =>
          match expected with
          | Some e => let! _ := guard (String.eqb s e) EBadRequest in Ok (Some s)
          | None => Ok (Some s)
          end
      end
  end.
(** The loop of resources/cmputils.py 1366-1374. *)
Fixpoint each_info (l : list (Z * bool)) : result unit :=
  match l with
  | [] => Ok tt
  | (n, loc) :: r =>
      let! _ := guard ((n =? 0) || (n =? 1) || (n =? 2) || (n =? 3)) EBadDataFormat in
      let! _ := guard (negb (n =? 0)) EBadDataFormat in
      let! _ := guard loc EBadDataFormat in
      each_info r
  end.
(** Models resources/cmputils.py 1311-1378 (validate_pki_publication_information). *)
Definition validate_publication (X : ctx) (l : list control) (must : bool) : result unit :=
  match first_of "id_regCtrl_pkiPublicationInfo" l with
  | None => if must then Err EValueError else Ok tt
  | Some der =>
      match x_publication X der with
      | None => Err EPyAsn1
      | Some (_, _ :: _) => Err EBadAsn1Data
      | Some (p, []) =>
          let! _ := guard ((pi_action p =? 0) || (pi_action p =? 1)) EBadDataFormat in
          let! _ := guard (negb ((pi_action p =? 0) && match pi_infos p with Some _ => true | None => false end)) EBadDataFormat in
          match pi_infos p with None => Ok tt | Some i => each_info i end
      end
  end.

(** The keyword arguments of validate_cert_request_controls that are not the request. [co_extra] is the extra issuing
    data: the expected token and the expected authenticator; its mark that the token was used is the state. *)
Record copts := {
  co_archive : bool; co_publication : bool; co_token_must : bool; co_auth_must : bool;
  co_extra : option (option string * option string); co_token : option string; co_found : bool; co_auth : option string
}.
Definition token_type : string := "id_regCtrl_regToken".
Definition auth_type : string := "id_regCtrl_authenticator".
(** Models resources/ca_ra_utils.py 1330-1397 (validate_cert_request_controls): the outcome and the mark afterwards.
    [kur] is the given request with the given CA certificate. *)
Definition validate_controls (E : env) (X : ctx) (c : copts) (kur : option (request * option cert)) (r : certreq) (used : bool)
  : result unit * bool :=
  match r_controls r with
  | None => (Ok tt, used)
  | Some l =>
      let before :=
        let! _ := match kur with
                  | Some (m, ca) => if String.eqb (b_name m) "kur" then validate_kur_controls E m ca false else Ok tt
                  | None => Ok tt
                  end in
        let! _ := validate_archive E X l (co_archive c) (r_tmpl r) in
        let! _ := validate_publication X l (co_publication c) in
        match (match co_extra c with Some (t, _) => t | None => co_token c end) with
        | None => Ok false
        | Some t =>
            let! s := validate_text X token_type l (co_token_must c) (Some t) in
            match s with
            | None => Ok false
            | Some _ =>
                let! _ := guard (negb (match co_extra c with Some _ => used | None => co_found c end)) EBadRequest in Ok true
            end
        end in
      match before with
      | Err e => (Err e, used)
      | Ok taken =>
          let auth := match co_auth c with
                      | Some a => Some a
                      | None => match co_extra c with Some (_, a) => a | None => None end
                      end in
          (let! _ := validate_text X auth_type l (co_auth_must c) auth in Ok tt,
           match co_extra c with Some _ => used || taken | None => used end)
      end
  end.

(** ** Requests to the mock CA *)

(** Models resources/ca_ra_utils.py 2357-2391 (_process_one_cert_request before the controls). *)
Definition before_controls (E : env) (m : request) (i : nat) (o : opts) : result (reqmsg * option certreq) :=
  let! q := get_req m i in
  let! _ := match q_popo q with
            | Some (PoSig a _) =>
                let! p := catch (fun e => is_key_data e || match e with EBadAsn1Data => true | _ => false end)
                                EBadCertTemplate (req_key E q) in
                match p with
                | PubDh => Err EBadPOP
                | Pub k =>
                    let! _ := guard (is_sign_kind (k_kind k)) EBadPOP in
                    catch is_sig_id EBadPOP (consistent (a_oid a) (k_kind k))
                end
            | Some _ => Ok tt
            | None => let! b := is_for_kga E m 0 in guard (b : bool) EBadCertTemplate
            end in
  let! alt := reg_info E q in
  let! _ := validate_template E (r_tmpl (q_req q)) None (o_lw o) in
  Ok (q, alt).
(** Models resources/ca_ra_utils.py 2337-2424 (_process_one_cert_request) with the mark of the token. The keyword
    arguments do not contain the request. *)
Definition process_one_st (E : env) (X : ctx) (c : copts) (m : request) (i : nat) (o : opts) (used : bool) : result issued * bool :=
  match before_controls E m i o with
  | Err e => (Err e, used)
  | Ok (q, alt) =>
      let '(r, used') := validate_controls E X c None (q_req q) used in
      (let! _ := r in let! _ := verify_popo E m i o in respond E m q (option_map r_tmpl alt), used')
  end.
(** Models resources/ca_ra_utils.py 2427-2464 (_process_cert_requests). *)
Fixpoint process_from_st (E : env) (X : ctx) (c : copts) (m : request) (o : opts) (i : nat) (l : list reqmsg) (used : bool)
  : result (list (Z * issued)) * bool :=
  match l with
  | [] => (Ok [], used)
  | q :: r =>
      match process_one_st E X c m i o used with
      | (Err e, u) => (Err e, u)
      | (Ok x, u) =>
          let '(rest, u') := process_from_st E X c m o (S i) r u in
          (let! y := rest in Ok ((r_id (q_req q), x) :: y), u')
      end
  end.
(** The arguments of the mock CA (mock_ca/cert_req_handler.py 156-172) for an ir or a key update protected with a KEM;
    mock_ca/cert_req_handler.py 395-422 (process_cr) gives none of them. *)
Definition with_data (token auth : string) : copts :=
  {| co_archive := false; co_publication := false; co_token_must := false; co_auth_must := false;
     co_extra := Some (Some token, Some auth); co_token := None; co_found := false; co_auth := None |}.
Definition without_data : copts :=
  {| co_archive := false; co_publication := false; co_token_must := false; co_auth_must := false;
     co_extra := None; co_token := None; co_found := false; co_auth := None |}.
(** Models mock_ca/cert_req_handler.py 658-716 (process_cert_request), with the mark of the token, for the bodies ir and
    cr and for key updates protected with a KEM. *)
Definition serve_st (E : env) (X : ctx) (token auth : string) (m : request) (o : opts) (used : bool)
  : result (list (Z * issued)) * bool :=
  match validate_ids m with
  | Err e => (Err e, used)
  | Ok _ =>
      if String.eqb (b_name m) "ir" then
        match (if o_lw o then enforce_lwcmp m else Ok tt) with
        | Err e => (Err e, used)
        | Ok _ => process_from_st E X (with_data token auth) m o 0 (b_reqs m) used
        end
      else if String.eqb (b_name m) "cr" then
        process_from_st E X without_data m {| o_ra := o_ra o; o_chain := o_chain o; o_eku := true; o_lw := true |} 0 (b_reqs m) used
      else if String.eqb (b_name m) "kur" then
        match b_certs m with
        | [] => (Err EBadRequest, used)
        | _ =>
            match (if o_lw o then enforce_lwcmp m else Ok tt) with
            | Err e => (Err e, used)
            | Ok _ =>
                process_from_st E X (with_data token auth) m
                  {| o_ra := false; o_chain := o_chain o; o_eku := o_eku o; o_lw := o_lw o |} 0 (b_reqs m) used
            end
        end
      else (Err ENotImplemented, used)
  end.
(** The requests the handler answers one after the other, with the answers. *)
Fixpoint history (E : env) (X : ctx) (token auth : string) (l : list (request * opts)) (used : bool)
  : list (request * result (list (Z * issued))) * bool :=
  match l with
  | [] => ([], used)
  | (m, o) :: r =>
      let '(a, u) := serve_st E X token auth m o used in
      let '(rest, u') := history E X token auth r u in ((m, a) :: rest, u')
  end.
