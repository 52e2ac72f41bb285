(** A library that satisfies the assumptions of the related certificate properties, for the examples. It is not a model of any
    code in /repo. *)
From Coq Require Import String.
From Verif Require Import Prelude PreludeFacts ProtToy ProtTab ChamProofs ChamToy CertChainModel BitModel RelModel RelSpec RelProofs.
From Verif Require EnvlToy SdModel SdToy.
Open Scope string_scope.
Open Scope Z_scope.
Open Scope list_scope.

Definition c_ext : codec ext :=
  c_map (fun p => {| x_id := fst p; x_crit := fst (snd p); x_val := snd (snd p) |})
        (fun e => (x_id e, (x_crit e, x_val e))) (c_pair c_str (c_pair c_bool c_bytes)).
Definition c_exts := c_list c_ext.
Definition c_req : codec req :=
  c_map (fun p => match p with (i, (n, (t, (u, s)))) => {| q_issuer := i; q_serial := n; q_time := t; q_uri := u; q_sig := s |} end)
        (fun q => (q_issuer q, (q_serial q, (q_time q, (q_uri q, q_sig q)))))
        (c_pair c_bytes (c_pair c_z (c_pair c_z (c_pair c_str c_bytes)))).
Definition c_desc : codec desc :=
  c_map (fun p => match p with (u, (s, k)) => {| d_uri := u; d_sig := s; d_key := k |} end)
        (fun d => (d_uri d, (d_sig d, d_key d))) (c_pair c_str (c_pair (c_opt SdToy.c_alg) (c_opt SdToy.c_alg))).
Definition c_loc : codec loc :=
  c_map (fun p => match p with Some (t, v) => LOther t v | None => LElse end)
        (fun l => match l with LOther t v => Some (t, v) | LElse => None end) (c_opt (c_pair c_str c_bytes)).
Definition c_access : codec access :=
  c_map (fun p => {| a_method := fst p; a_loc := snd p |}) (fun a => (a_method a, a_loc a)) (c_pair c_str c_loc).
Lemma good_req : good c_req. Proof. good_tac. Qed.
Lemma good_desc : good c_desc.
Proof. assert (good SdToy.c_alg) by good_tac. apply good_map; [now intros []|]. repeat first [assumption | apply good_str | apply good_opt | apply good_pair]. Qed.
Lemma good_access : good c_access.
Proof.
  assert (good c_loc) by (apply good_map; [now intros []|]; good_tac). apply good_map; [now intros []|].
  repeat first [assumption | apply good_str | apply good_pair].
Qed.

(** A certificate is its number, the algorithm of its signature (0: ECDSA with SHA-256, 1: ECDSA with SHA-512, 2: Ed25519),
    whether it has an extended key usage, the number of the certificate that signed it, and its extensions. *)
Definition mk (n sig eku by_ : Z) (l : list ext) : cert :=
  {| c_der := [n; sig; eku; by_] ++ en c_exts l; c_issuer := [by_]; c_subject := [n]; c_name := ""; c_serial := n |}.
Definition field (i : nat) (c : cert) : Z := nth i (c_der c) 0.
Definition sig_alg (k : Z) : alg :=
  {| SdModel.g_oid := if k =? 0 then "ecdsa_with_SHA256" else if k =? 1 then "ecdsa_with_SHA512" else "id_Ed25519"; SdModel.g_par := None |}.
Definition bc (b : bool) : ext := {| x_id := BASIC; x_crit := true; x_val := en c_bool b |}.
Definition root : cert := mk 1 0 0 1 [bc true].
Definition ca : cert := mk 2 0 0 1 [bc true].
Definition ee : cert := mk 3 0 0 2 [bc false].
Definition ee512 : cert := mk 5 1 0 2 [].
Definition ee_dup : cert := mk 3 2 0 2 [].
Definition secret (n : Z) : skey := {| s_id := [n] |}.
Definition toy_sig (k d : bytes) (h : string) : bytes := k ++ put (sb h) ++ d.
Definition toy : lib := {|
  l_octenc := put; l_octdec := get;
  l_timeenc := fun t => [t]; l_idenc := fun i n => put i ++ [n];
  l_reqenc := en c_req; l_reqdec := de c_req;
  l_bcdec := de c_bool; l_extsdec := de c_exts;
  l_siaenc := en (c_list c_access); l_siadec := de (c_list c_access);
  l_descenc := en c_desc; l_descdec := de c_desc;
  l_sigalg := fun c => sig_alg (field 1 c);
  l_keyalg := fun c => {| SdModel.g_oid := "id_ecPublicKey"; SdModel.g_par := Some [field 0 c] |};
  l_exts := fun c => match de c_exts (skipn 4 (c_der c)) with Some (l, _) => l | None => [] end;
  l_usages := fun c => {| k_usage := Some [true]; k_eku := if field 2 c =? 1 then Some [CM_KGA] else None |};
  l_from := fun _ => 0; l_to := fun _ => 100;
  l_hash := fun h d => put (sb h) ++ d;
  l_load := fun c => Ok {| u_id := [field 0 c] |}; l_verifies := fun p => negb (bytes_eqb (u_id p) [9]);
  l_sign := fun k d h => Ok (toy_sig (s_id k) d h);
  l_verify := fun p d s h => guard (bytes_eqb s (toy_sig (u_id p) d h)) EInvalidSignature;
  l_spoil := fun s k => Ok (0 :: s); l_other_issuer := fun c => Ok (0 :: c_issuer c);
  l_get := fun u => if String.eqb u "ee" then Ok (en SdToy.c_cert ee) else if String.eqb u "mirror" then Ok (en SdToy.c_cert ee)
                    else if String.eqb u "chain" then Ok (en (c_list SdToy.c_cert) [ee; ca; root])
                    else if String.eqb u "ca" then Ok (en SdToy.c_cert ca) else if String.eqb u "dup" then Ok (en SdToy.c_cert ee_dup) else Err EException;
  l_certdec := de SdToy.c_cert;
  l_pems := fun b => match de (c_list SdToy.c_cert) b with Some (l, _) => Ok l | None => Err EValueError end;
  l_chain := {| e_load := fun _ => Ok tt; e_hash := fun _ => Ok tt; e_verify := fun i c => guard (field 3 c =? field 0 i) EInvalidSignature |};
  l_openssl := fun l _ => guard (Nat.leb 2 (List.length l)) EValueError
|}.
Lemma toy_codecs : codecs toy.
Proof.
  constructor; cbn [toy l_octenc l_octdec l_reqenc l_reqdec l_siaenc l_siadec l_descenc l_descdec].
  - intros b. exact (EnvlToy.de_en _ c_bytes b good_bytes).
  - intros q. apply EnvlToy.de_en, good_req.
  - intros s. apply EnvlToy.de_en, good_list, good_access.
  - intros d. apply EnvlToy.de_en, good_desc.
Qed.
Lemma toy_free : collision_free toy.
Proof. intros n x y H. cbn [toy l_hash] in H. exact (app_inv_head _ _ _ H). Qed.
Lemma toy_full m x : l_hash toy m x <> [].
Proof. cbn [toy l_hash]. unfold put. discriminate. Qed.
Lemma toy_key n sig eku by_ l : n <> 9 -> key_of toy (secret n) (mk n sig eku by_ l).
Proof.
  intros N. exists {| u_id := [n] |}. split; [reflexivity|]. split.
  - cbn [toy l_verifies u_id]. destruct (bytes_eqb [n] [9]) eqn:E; [|reflexivity]. apply bytes_eqb_iff in E. congruence.
  - intros d h s H. cbn [toy l_sign l_verify secret s_id u_id] in *. assert (s = toy_sig [n] d h) as -> by congruence.
    assert (bytes_eqb (toy_sig [n] d h) (toy_sig [n] d h) = true) as -> by (apply bytes_eqb_iff; reflexivity). reflexivity.
Qed.

Definition ext_of (r : result ext) : ext := match r with Ok e => e | Err _ => bc false end.
Definition req_of (r : result req) : req :=
  match r with Ok q => q | Err _ => {| q_issuer := []; q_serial := 0; q_time := 0; q_uri := ""; q_sig := [] |} end.
(** Certificates that name [ee] by their extension, signed with SHA-256 or SHA-512, without or with an extended key usage. *)
Definition rel : ext := ext_of (prepare_extension toy ee None false).
Definition holder : cert := mk 4 0 0 2 [bc false; rel].
Definition holder512 : cert := mk 4 1 0 2 [rel].
Definition holder_eku : cert := mk 4 0 1 2 [rel].
(** Requests for [ee] at the location [u]. *)
Definition request (u : string) : req := req_of (prepare_requester toy 10 ee (secret 3) u false None false false 0 None).
Definition asks (u : string) : list attr := add_request toy [] (request u).
(** A certificate with a descriptor. *)
Definition finder : cert := mk 6 0 0 2 [bc false; prepare_sia toy "ee" false None None (Some ee)].
