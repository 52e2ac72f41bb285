(** Vocabulary of the properties of controls and registration tokens. *)
From Coq Require Import String Ascii.
From Verif Require Import Prelude PyStr CompLoadModel HdrModel ProtTab ProtModel PopModel PopSpec CtrlModel.
Open Scope string_scope.
Open Scope Z_scope.
Local Notation length := List.length.

(** A control with a text, [s] if there is one, is present if it must be, is the only control of its type, decodes
    completely and is the expected text. *)
Definition text_ok (X : ctx) (ty : string) (l : list control) (must : bool) (expected s : option string) : Prop :=
  (no_entry ty l /\ must = false /\ s = None) \/
  exists v t, the_first ty l v /\ distinct l /\ x_text X v = Some (t, []) /\ (expected = None \/ expected = Some t) /\ s = Some t.
(** The archive options: given parameters generate the requested key. *)
Definition archive_ok (E : env) (X : ctx) (l : list control) (must : bool) (t : template) : Prop :=
  (no_entry "id_regCtrl_pkiArchiveOptions" l /\ must = false) \/
  exists v a, the_first "id_regCtrl_pkiArchiveOptions" l v /\ x_archive X v = Some (a, []) /\
    forall b, a = AParams b ->
      exists d k k', t_key t = TKey d /\ e_load E d = Ok (Pub k) /\ x_name X (Pub k) = Ok tt /\ x_generate X (Pub k) b = Ok k' /\
        e_same E k' k = true.
(** The publication information: nothing is said about where when nothing is to be published, and places are given by
    a method other than "don't care" and a location. *)
Definition publication_ok (X : ctx) (l : list control) (must : bool) : Prop :=
  (no_entry "id_regCtrl_pkiPublicationInfo" l /\ must = false) \/
  exists v p, the_first "id_regCtrl_pkiPublicationInfo" l v /\ x_publication X v = Some (p, []) /\
    ((pi_action p = 0 /\ pi_infos p = None) \/
     (pi_action p = 1 /\ forall i n loc, pi_infos p = Some i -> In (n, loc) i -> 1 <= n <= 3 /\ loc = true)).
(** The token and the authenticator that are expected, and whether the token was used before. *)
Definition expected_token (c : copts) : option string := match co_extra c with Some (t, _) => t | None => co_token c end.
Definition expected_auth (c : copts) : option string :=
  match co_auth c, co_extra c with Some a, _ => Some a | None, Some (_, a) => a | None, None => None end.
Definition token_used (c : copts) (used : bool) : bool := match co_extra c with Some _ => used | None => co_found c end.
(** The controls are accepted and the mark of the token becomes [used']. *)
Definition controls_ok (E : env) (X : ctx) (c : copts) (kur : option (request * option cert)) (r : certreq) (used used' : bool) : Prop :=
  match r_controls r with
  | None => used' = used
  | Some l =>
      (forall m ca q, kur = Some (m, ca) -> b_name m = "kur" -> nth_error (b_reqs m) 0 = Some q -> kur_controls E m q ca false) /\
      (forall m ca, kur = Some (m, ca) -> b_name m = "kur" -> b_reqs m <> []) /\
      archive_ok E X l (co_archive c) (r_tmpl r) /\ publication_ok X l (co_publication c) /\
      (exists s, text_ok X auth_type l (co_auth_must c) (expected_auth c) s) /\
      match expected_token c with
      | None => used' = used
      | Some t =>
          exists s, text_ok X token_type l (co_token_must c) (Some t) s /\
            match s with
            | None => used' = used
            | Some _ => token_used c used = false /\ used' = match co_extra c with Some _ => true | None => used end
            end
      end
  end.

(** A request with a registration token, and one with the right one. *)
Definition has_token (r : certreq) : bool :=
  match r_controls r with Some l => existsb (fun c => String.eqb (ct_type c) token_type) l | None => false end.
Definition right_token (X : ctx) (token : string) (r : certreq) : Prop :=
  exists l v, r_controls r = Some l /\ the_first token_type l v /\ x_text X v = Some (token, []).
(** The requests with a token that got a certificate, other than by cr. *)
Definition with_token (a : list (request * result (list (Z * issued)))) : list reqmsg :=
  List.concat (List.map (fun x => match snd x with
                                  | Ok _ => if String.eqb (b_name (fst x)) "cr" then []
                                            else filter (fun q => has_token (q_req q)) (b_reqs (fst x))
                                  | Err _ => []
                                  end) a).
(** The environment with other checks of the controls. *)
Definition with_controls (E : env) (f : nat -> certreq -> result unit) : env := {|
  e_lib := e_lib E; e_rnd := e_rnd E; e_load := e_load E; e_params := e_params E; e_bits := e_bits E; e_same := e_same E;
  e_stf := e_stf E; e_gen := e_gen E; e_enc := e_enc E; e_dec := e_dec E; e_utf8 := e_utf8 E; e_old := e_old E;
  e_issuer := e_issuer E; e_serial := e_serial E; e_controls := f; e_ras := e_ras E; e_eku := e_eku E; e_ku := e_ku E;
  e_chain := e_chain E; e_self := e_self E; e_openssl := e_openssl E; e_build := e_build E; e_central := e_central E;
  e_agree := e_agree E; e_wrap := e_wrap E; e_open := e_open E |}.
(** The options the mock CA handles a request with: what an RA confirms counts except for key updates, and the certificate
    of an RA needs the extended key usage for a cr. *)
Definition options_of (m : request) (o : opts) : opts :=
  if String.eqb (b_name m) "ir" then o
  else if String.eqb (b_name m) "cr" then {| o_ra := o_ra o; o_chain := o_chain o; o_eku := true; o_lw := true |}
  else {| o_ra := false; o_chain := o_chain o; o_eku := o_eku o; o_lw := o_lw o |}.
