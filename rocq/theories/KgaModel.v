(** Model of validate_not_local_key_gen: the response to a request for a key pair generated centrally
    (resources/ca_kga_logic.py 212-372).

    Simplified: as in EnvlModel.v and SdModel.v; a body without certificate responses has no list of them; the query for a
    response past the end fails; the issued certificate has lost its tagging; a key is compared by its public bytes. *)
From Coq Require Import String.
From Verif Require Import Prelude CertChainModel BitModel SdModel.
From Verif Require EnvlModel.
Open Scope string_scope.
Open Scope Z_scope.
Open Scope list_scope.

(** rfc9480.CertifiedKeyPair: the certificate, if it is one and in clear, and the private key. *)
Inductive sent_key := NoKey | EnvKey (v : EnvlModel.env) | OtherKey.
Record pair := { f_cert : option cert; f_key : sent_key }.
(** PKIMessage: version, extra certificates, the certifiedKeyPair of each response, protection algorithm, the rest. *)
Record kmsg := { q_pvno : Z; q_extra : list cert; q_pairs : option (list (option pair)); q_prot : option EnvlModel.alg; q_rest : bytes }.

(** The libraries of both models, how EnvlModel.v sees a certificate, the decoder of SignedData and loading the public key
    of a certificate (resources/certutils.py 307-333). *)
Record klib := {
  y_env : EnvlModel.lib; y_sd : lib; y_view : cert -> EnvlModel.cert;
  y_signed : bytes -> option (signed * bytes); y_pub : cert -> result bytes
}.
Definition as_env (Y : klib) (m : kmsg) : EnvlModel.msg :=
  {| EnvlModel.n_prot := q_prot m; EnvlModel.n_extra := map (y_view Y) (q_extra m); EnvlModel.n_rest := q_rest m |}.

(** Models resources/ca_kga_logic.py 324-372 (_check_correct_non_local_key_gen_use) with the default strictness: BadKeyUsage
    is not a ValueError and is passed on. *)
Definition check_use (Y : klib) (c : cert) (t : EnvlModel.rname) (m : kmsg) (pw : option bytes) : result unit :=
  match t with
  | EnvlModel.NKtri | EnvlModel.NOri => Ok tt
  | EnvlModel.NKari => validate_key_usage (l_usages (y_sd Y) c) "keyAgreement" (VInt 2)
  | EnvlModel.NPwri =>
      match pw with
      | None => Err EValueError
      | Some p => EnvlModel.l_verify (y_env Y) (as_env Y m) p
      end
  | EnvlModel.NKekri => Err EValueError
  end.

(** What is given beside the message. *)
Record wants := { z_pw : option bytes; z_type : EnvlModel.expected; z_cert : nat; z_size : nat; z_index : nat;
                  z_key : option EnvlModel.priv; z_save : option string }.
(** Models resources/cmputils.py 3867-3909 (get_cert_from_pkimessage) with 3810-3843, for the bodies with responses. *)
Definition issued_cert (m : kmsg) (i : nat) : result cert :=
  match q_pairs m with
  | None => Err EValueError
  | Some l => match nth_error l i with
              | Some (Some p) => match f_cert p with Some c => Ok c | None => Err EValueError end
              | _ => Err EValueError
              end
  end.
(** Models resources/ca_kga_logic.py 212-321 (validate_not_local_key_gen). *)
Definition validate_kga (Y : klib) (m : kmsg) (z : wants) (dir os : list cert) : result key :=
  let! _ := guard (q_pvno m =? 3) EValueError in
  match nth_error (q_extra m) (z_cert z) with
  | None => Err EIndexError
  | Some c =>
      let! l := match q_pairs m with Some l => Ok l | None => Err EValueError end in
      match nth_error l (z_index z) with
      | None => Err EValueError
      | Some None => Err EPyAsn1
      | Some (Some p) =>
          match f_key p with
          | NoKey => Err EPyAsn1
          | OtherKey => Err EValueError
          | EnvKey v =>
              let g := {| EnvlModel.i_msg := Some (as_env Y m); EnvlModel.i_pw := z_pw z; EnvlModel.i_cert := Some (y_view Y c);
                          EnvlModel.i_kari := None; EnvlModel.i_key := z_key z; EnvlModel.i_pop := false;
                          EnvlModel.i_null := false; EnvlModel.i_salt := None |} in
              let! data := EnvlModel.open_env (y_env Y) v g (z_type z) (z_index z) (z_size z) false in
              let! d := match y_signed Y data with
                        | Some (d, []) => Ok d
                        | Some _ => Err EValueError
                        | None => Err EPyAsn1
                        end in
              let! k := validate_signed (y_sd Y) d (z_size z) (z_index z) dir os (z_save z) in
              match nth_error (EnvlModel.v_recips v) (z_index z) with
              | None => Err EIndexError
              | Some r =>
                  let! _ := check_use Y c (EnvlModel.name_of r) m (z_pw z) in
                  let! i := issued_cert m (z_index z) in
                  let! q := y_pub Y i in
                  let! _ := guard (bytes_eqb q (k_pub k)) EMismatchingKey in
                  Ok k
              end
          end
      end
  end.
