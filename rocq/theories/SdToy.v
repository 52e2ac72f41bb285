(** A library that satisfies the assumptions of the SignedData properties, for the examples. It is not a model of any code in
    /repo. *)
From Coq Require Import String.
From Verif Require Import Prelude PreludeFacts ProtToy ProtTab ChamProofs ChamToy CertChainModel BitModel SdModel SdSpec.
From Verif Require EnvlToy.
Open Scope string_scope.
Open Scope Z_scope.
Open Scope list_scope.

(** ** Codecs *)

Definition c_alg : codec alg :=
  c_map (fun p => {| g_oid := fst p; g_par := snd p |}) (fun a => (g_oid a, g_par a)) (c_pair c_str (c_opt c_bytes)).
Definition c_one : codec one_key :=
  c_map (fun p => match p with (v, (k, r)) => {| o_version := v; o_private := k; o_rest := r |} end)
        (fun o => (o_version o, (o_private o, o_rest o))) (c_pair c_z (c_pair c_bytes c_bytes)).
Definition c_encap : codec encap :=
  c_map (fun p => {| n_type := fst p; n_content := snd p |}) (fun a => (n_type a, n_content a)) (c_pair c_str (c_opt c_bytes)).
Definition c_cert : codec cert :=
  c_map (fun p => match p with (d, (i, (s, (n, z)))) => {| c_der := d; c_issuer := i; c_subject := s; c_name := n; c_serial := z |} end)
        (fun c => (c_der c, (c_issuer c, (c_subject c, (c_name c, c_serial c)))))
        (c_pair c_bytes (c_pair c_bytes (c_pair c_bytes (c_pair c_str c_z)))).
Definition c_choice : codec choice :=
  c_map (fun p => match p with Some c => ChCert c | None => ChOther end)
        (fun c => match c with ChCert c => Some c | ChOther => None end) (c_opt c_cert).
Definition c_sid : codec sid :=
  c_map (fun p => if fst p =? 0 then SidSki (fst (snd p)) else SidIsn (fst (snd p)) (snd (snd p)))
        (fun r => match r with SidSki s => (0, (s, 0)) | SidIsn i n => (1, (i, n)) end) (c_pair c_z (c_pair c_bytes c_z)).
Definition c_attr : codec attr :=
  c_map (fun p => {| t_type := fst p; t_vals := snd p |}) (fun a => (t_type a, t_vals a)) (c_pair c_str (c_list c_bytes)).
Definition c_signer : codec signer :=
  c_map (fun p => match p with (v, (i, (d, (t, (a, s))))) => {| s_version := v; s_sid := i; s_digest := d; s_attrs := t; s_alg := a; s_sig := s |} end)
        (fun s => (s_version s, (s_sid s, (s_digest s, (s_attrs s, (s_alg s, s_sig s))))))
        (c_pair c_z (c_pair c_sid (c_pair c_alg (c_pair (c_list c_attr) (c_pair c_alg (c_opt c_bytes)))))).
Definition c_signed : codec signed :=
  c_map (fun p => match p with (v, (d, (e, (c, s)))) => {| d_version := v; d_digests := d; d_encap := e; d_certs := c; d_signers := s |} end)
        (fun d => (d_version d, (d_digests d, (d_encap d, (d_certs d, d_signers d)))))
        (c_pair c_z (c_pair (c_list c_alg) (c_pair c_encap (c_pair (c_list c_choice) (c_list c_signer))))).
Lemma good_one : good c_one. Proof. good_tac. Qed.
Lemma good_signed : good c_signed.
Proof.
  assert (good c_alg) by good_tac. assert (good c_encap) by good_tac. assert (good c_cert) by good_tac.
  assert (good c_choice) by (apply good_map; [now intros []|]; apply good_opt; assumption).
  assert (good c_sid) by (apply good_map; [now intros []|]; good_tac). assert (good c_attr) by good_tac.
  assert (good c_signer).
  { apply good_map; [now intros []|]. repeat first [assumption | apply good_z | apply good_bytes | apply good_list | apply good_opt | apply good_pair]. }
  apply good_map; [now intros []|]. repeat first [assumption | apply good_z | apply good_list | apply good_opt | apply good_pair].
Qed.

(** ** The library *)

(** A certificate is its number, the kind of its key (0: EC, 1: Ed25519, 2: ML-DSA-44), whether it is for key generation and has
    a subject key identifier, and the number of the certificate that signed it. *)
Definition mk (n kind kga ski by_ : Z) : cert :=
  {| c_der := [n; kind; kga; ski; by_]; c_issuer := [by_]; c_subject := [n]; c_name := ""; c_serial := n |}.
Definition field (i : nat) (c : cert) : Z := nth i (c_der c) 0.
Definition kind_alg (k : Z) : alg :=
  {| g_oid := if k =? 0 then "id_ecPublicKey" else if k =? 1 then "id_Ed25519" else "pq:ml-dsa-44"; g_par := None |}.
Definition toy_key (n kind : Z) : key := {| k_id := [n; kind]; k_pub := [n; kind] |}.
(** A signature names the key and repeats the data; that of an EC key names the hash, too. *)
Definition toy_sig (n kind : Z) (data : bytes) (h : option string) : bytes :=
  n :: (if kind =? 0 then match h with Some x => sb x | None => [] end else []) ++ data.
Definition toy : lib := {|
  l_pkgenc := en (c_list c_one); l_pkgdec := de (c_list c_one);
  l_octenc := put; l_octdec := get; l_oidenc := sb; l_algenc := en c_alg; l_encapenc := en c_encap;
  l_hash := fun h d => put (sb h) ++ [sum d];
  l_spki := fun c => kind_alg (field 1 c);
  l_ski := fun c => if field 3 c =? 1 then Some [field 0 c] else None;
  l_usages := fun c => {| k_usage := Some [true; false; false; false; true]; k_eku := if field 2 c =? 1 then Some [CM_KGA] else None |};
  l_load := fun o => match o_private o with [n; k] => Ok (toy_key n k) | _ => Err EInvalidKeyData end;
  l_export := fun k p t => guard (String.eqb t "raw") EValueError;
  l_verify := fun c d s h => guard (bytes_eqb s (toy_sig (field 0 c) (field 1 c) d h)) EInvalidSignature;
  l_openssl := fun l => guard (negb (Nat.eqb (List.length l) 0)) EValueError;
  l_stateful := fun _ => Err EValueError;
  l_chain := {| e_load := fun _ => Ok tt; e_hash := fun _ => Ok tt; e_verify := fun i c => guard (field 4 c =? field 0 i) EInvalidSignature |};
  l_one := fun k t => match k_id k, k_pub k with
                      | [n; x], [n'; x'] => if (n =? n') && (x =? x') then Ok {| o_version := 1; o_private := [n; x]; o_rest := [] |} else Err EValueError
                      | _, _ => Err EValueError
                      end;
  l_sign := fun k d h => match k_id k with [n; x] => Ok (toy_sig n x d (Some h)) | _ => Err EValueError end;
  l_sigoid := fun k h => match k_id k with
                         | [_; x] => if x =? 1 then Ok "id_Ed25519" else if x =? 2 then Ok "pq:ml-dsa-44"
                                     else if String.eqb h "sha256" then Ok "ecdsa_with_SHA256" else Ok "ecdsa_with_SHA512"
                         | _ => Err EValueError
                         end;
  l_defhash := fun k => match k_id k with [_; x] => Ok (if x =? 0 then "sha256" else "sha512") | _ => Err EValueError end
|}.
Lemma toy_sd_laws : sd_laws toy.
Proof.
  constructor; cbn [toy l_pkgenc l_pkgdec l_octenc l_octdec l_one l_load].
  - intros p. apply EnvlToy.de_en. apply good_list, good_one.
  - intros b. exact (EnvlToy.de_en _ c_bytes b good_bytes).
  - intros [kid kpub] t o H. cbn [k_id k_pub] in *. destruct kid as [|n [|x [|]]]; try discriminate H. destruct kpub as [|n' [|x' [|]]]; try discriminate H.
    destruct ((n =? n') && (x =? x')) eqn:E; [|discriminate H]. apply andb_prop in E. destruct E as [E1 E2]. apply Z.eqb_eq in E1, E2. subst. injection H as <-.
    split; reflexivity.
Qed.
(** Signatures of a key are verified by a certificate of the same number and kind. *)
Lemma toy_verifies n kind kga ski by_ data h s : l_sign toy (toy_key n kind) data h = Ok s ->
  l_verify toy (mk n kind kga ski by_) data s (Some h) = Ok tt /\ (kind <> 0 -> l_verify toy (mk n kind kga ski by_) data s None = Ok tt).
Proof.
  cbn [toy l_sign l_verify toy_key k_id field mk c_der nth]. intros H. assert (s = toy_sig n kind data (Some h)) as -> by congruence. split.
  - assert (bytes_eqb (toy_sig n kind data (Some h)) (toy_sig n kind data (Some h)) = true) as -> by (apply bytes_eqb_iff; reflexivity). reflexivity.
  - intros Hk. apply Z.eqb_neq in Hk. unfold toy_sig. rewrite Hk. match goal with |- guard ?b _ = _ => assert (b = true) as -> by (apply bytes_eqb_iff; reflexivity) end. reflexivity.
Qed.
