(** An environment for the examples of certificate request processing. It is not a model of any code in /repo. *)
From Coq Require Import String Ascii.
From Verif Require Import Prelude PyStr CompLoadModel HdrModel ProtTab ProtModel ProtSpec ProtToy PopModel PopSpec.
Open Scope string_scope.
Open Scope Z_scope.
Open Scope list_scope.
Local Notation length := List.length.

Definition kind_of (t : Z) : option kkind :=
  match t with 0 => Some KRsa | 1 => Some KEc | 2 => Some KEd25519 | 3 => Some (KKem "ml-kem") | 4 => Some KX25519 | 5 => Some KDsa | _ => None end.
Definition load_pop (d : bytes) : result pub :=
  match d with
  | [6; _] => Ok PubDh
  | [t; n] => match kind_of t with Some k => Ok (Pub {| k_kind := k; k_id := n |}) | None => Err EValueError end
  | _ => Err EValueError
  end.
Definition tmpl (k : tkey) : template := {|
  t_key := k; t_null := false; t_san := false; t_version := Some 2; t_nb := true; t_na := true; t_inull := false; t_ian := false;
  t_alg := true; t_ku := None; t_bc := None; t_rest := [] |}.
Definition creq (x : Z) (k : tkey) : certreq := {| r_id := x; r_tmpl := tmpl k; r_controls := None |}.
Definition enc_req (r : certreq) : bytes := r_id r :: match t_key (r_tmpl r) with TAbsent => [0] | TEmpty a => 1 :: a | TKey d => 2 :: d end.
Definition mkc (n : Z) : cert :=
  {| c_der := [n]; c_pub := Ok {| k_kind := KRsa; k_id := n |}; c_sig := "sha256WithRSAEncryption"; c_ski := None; c_subject := [n; 1]; c_name := [n] |}.
Definition ra_cert : cert := mkc 50.
Definition E0 : env := {|
  e_lib := toy; e_rnd := toy_rnd; e_load := load_pop; e_params := fun _ => false;
  e_bits := fun k => if k_id k =? 99 then 1024 else 2048;
  e_same := fun a b => k_id a =? k_id b; e_stf := fun _ _ _ => Ok tt; e_gen := fun _ => Ok tt;
  e_enc := fun r => Some (enc_req r);
  e_dec := fun b => match b with [x; 2; t; n] => Some (creq x (TKey [t; n]), []) | [x; 0] => Some (creq x TAbsent, []) | _ => None end;
  e_utf8 := fun _ => Ok tt;
  e_old := fun b => match b with [i; s] => Some (([i], s), []) | _ => None end;
  e_issuer := fun i c => bytes_eqb i (c_name c);
  e_serial := fun c => match c_der c with n :: _ => n | [] => 0 end;
  e_controls := fun _ _ => Ok tt; e_ras := [ra_cert]; e_eku := fun _ _ => Ok tt; e_ku := fun _ => Ok tt;
  e_chain := fun l _ => l; e_self := fun _ => true; e_openssl := fun _ => Ok tt; e_build := fun _ => Ok tt;
  e_central := fun _ => Ok tt; e_agree := fun k => Some {| k_kind := k_kind k; k_id := 7 |}; e_wrap := fun _ => Ok tt;
  e_open := fun _ b => match b with [n; 1] => Ok ({| k_kind := KX25519; k_id := n |}, true) | [n; _] => Ok ({| k_kind := KX25519; k_id := n |}, false) | _ => Err EValueError end
|}.
Lemma E0_keys : keys_known E0.
Proof.
  intros d k H. cbn [e_load E0] in H. unfold load_pop in H. destruct d as [|t [|n [|x l]]]; try discriminate.
  - destruct t as [|p|p]; try discriminate. repeat (destruct p as [p|p|]; try discriminate).
  - destruct (Z.eq_dec t 6) as [->|N]; [discriminate|].
    assert (K : match kind_of t with Some k => Ok (Pub {| k_kind := k; k_id := n |}) | None => Err EValueError end = Ok (Pub k)).
    { destruct t as [|p|p]; try exact H. repeat (destruct p as [p|p|]; try exact H). congruence. }
    destruct (kind_of t) as [kk|] eqn:KK; [|discriminate]. inversion K; subst k. cbn [k_kind]. unfold kind_of in KK.
    destruct t as [|p|p]; try discriminate; [inversion KK; exact I|].
    repeat (destruct p as [p|p|]; try discriminate); inversion KK; exact I.
  - destruct t as [|p|p]; try discriminate. repeat (destruct p as [p|p|]; try discriminate).
Qed.
Definition o0 : opts := {| o_ra := true; o_chain := true; o_eku := true; o_lw := true |}.
Definition sig256 : algid := Alg "sha256WithRSAEncryption" PNull.
Definition ec256 : algid := Alg "ecdsa_with_SHA256" PAbsent.
Definition sign_req (s : scheme) (k : Z) (r : certreq) : bytes := toy_sign s {| k_kind := KRsa; k_id := k |} (enc_req r).
Definition msg_of (b : string) (l : list reqmsg) (certs : list cert) (mac : bool) : request :=
  {| b_name := b; b_reqs := l; b_csr := None; b_entries := 0%nat; b_certs := certs; b_mac := mac |}.
Definition q_with (r : certreq) (p : option popo) (i : option (list control)) : reqmsg := {| q_req := r; q_popo := p; q_info := i |}.
(** A request for an RSA key, properly signed. *)
Definition rsa_req (x n : Z) : reqmsg := q_with (creq x (TKey [0; n])) (Some (PoSig sig256 (sign_req (SPkcs1 "sha256") n (creq x (TKey [0; n]))))) None.
(** The same with a signature that does not verify. *)
Definition bad_req (x n : Z) : reqmsg := q_with (creq x (TKey [0; n])) (Some (PoSig sig256 [1; 2; 3])) None.
