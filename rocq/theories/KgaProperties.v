(** The property of centrally generated keys (C120), see properties.jsonl. *)
From Coq Require Import String.
From Verif Require Import Prelude ChamToy CertChainModel BitModel BitSpec SdModel SdSpec SdToy SdProperties KgaModel KgaSpec KgaProofs.
From Verif Require EnvlModel EnvlSpec EnvlToy.
Open Scope string_scope.
Open Scope Z_scope.
Open Scope list_scope.

(** The key is returned exactly under the conditions of the specification. *)
Theorem C120_exact : forall Y m z dir os k, validate_kga Y m z dir os = Ok k <-> delivers Y m z dir os k.
Proof. exact kga_iff. Qed.
Print Assumptions C120_exact.
(** The returned key is that of the issued certificate, and a password recipient means that the message is protected by the
    same password. *)
Theorem C120_key : forall Y m z dir os k, validate_kga Y m z dir os = Ok k ->
  (exists i, issued m (z_index z) i /\ y_pub Y i = Ok (k_pub k))
  /\ forall v r, sent m (z_index z) v -> nth_error (EnvlModel.v_recips v) (z_index z) = Some (EnvlModel.Pwri r) ->
     exists p, z_pw z = Some p /\ EnvlModel.l_verify (y_env Y) (as_env Y m) p = Ok tt.
Proof.
  intros Y m z dir os k H. apply kga_iff in H. destruct H as (_ & c & v & data & d & r & i & _ & S & _ & _ & _ & R & P & I & U). split.
  - exists i. split; assumption.
  - intros v' r' S' R'. destruct S as (l & x & S1 & S2), S' as (l' & x' & S1' & S2'). assert (l' = l) by congruence. subst l'.
    assert (v' = v) by congruence. subst v'. assert (r = EnvlModel.Pwri r') by congruence. subst r. exact P.
Qed.
Print Assumptions C120_key.
(** What is built for a password is accepted, unless the salt of the protection is used again. *)
Theorem C120_password : forall Y m pw z dir os d k c i v data cek salt iv kdf s,
  EnvlSpec.laws (y_env Y) -> y_signed Y data = Some (d, []) -> validate_signed (y_sd Y) d 1 0 dir os (z_save z) = Ok k ->
  EnvlModel.build_env_pwri (y_env Y) pw data cek salt iv kdf false EnvlModel.SIGNED = Ok v -> EnvlSpec.aes_key cek ->
  q_pvno m = 3 -> nth_error (q_extra m) (z_cert z) = Some c ->
  q_pairs m = Some [Some {| f_cert := Some i; f_key := EnvKey v |}] -> y_pub Y i = Ok (k_pub k) ->
  EnvlSpec.protection_salt (y_env Y) (Some (as_env Y m)) None s -> s <> salt -> EnvlModel.l_verify (y_env Y) (as_env Y m) pw = Ok tt ->
  z_pw z = Some pw -> z_type z = EnvlModel.AName EnvlModel.NPwri -> z_size z = 1%nat -> z_index z = O ->
  validate_kga Y m z dir os = Ok k.
Proof. exact password_round. Qed.
Print Assumptions C120_password.
(** "A package of several keys is accepted" fails for the one recipient and one signer of RFC 9483: there must be as many
    recipients, signers and digest algorithms as keys. *)
Theorem C120_keys_refuted : forall Y m z dir os k, validate_kga Y m z dir os = Ok k ->
  exists v data d content pkg,
    sent m (z_index z) v /\ y_signed Y data = Some (d, []) /\ n_content (d_encap d) = Some content
    /\ l_pkgdec (y_sd Y) content = Some (pkg, []) /\ List.length (EnvlModel.v_recips v) = z_size z
    /\ List.length (d_signers d) = z_size z /\ List.length (d_digests d) = z_size z /\ List.length pkg = z_size z.
Proof. exact kga_sizes. Qed.
Print Assumptions C120_keys_refuted.
(** "Key transport needs a certificate for it" fails: the usages of the certificate are not looked at. *)
Theorem C120_usage_refuted : forall Y c m pw, check_use Y c EnvlModel.NKtri m pw = Ok tt /\ check_use Y c EnvlModel.NOri m pw = Ok tt.
Proof. intros. split; reflexivity. Qed.
Print Assumptions C120_usage_refuted.

Definition view (c : cert) : EnvlModel.cert :=
  {| EnvlModel.c_ski := Some (c_subject c); EnvlModel.c_issuer := c_issuer c; EnvlModel.c_serial := c_serial c;
     EnvlModel.c_spki := en EnvlToy.c_pub (EnvlModel.public_key (EnvlToy.key EnvlModel.KRsa (c_serial c))) |}.
Definition ktoy : klib := {| y_env := EnvlToy.toy; y_sd := toy; y_view := view; y_signed := de c_signed;
                             y_pub := fun c => Ok [field 0 c; field 1 c] |}.
Definition package : bytes := en c_signed good_sd.
Definition pw_v := EnvlToy.the EnvlToy.no_env (EnvlModel.build_env_pwri EnvlToy.toy [3; 4] package EnvlToy.cek32 [8] EnvlToy.iv16 "pbkdf2" false EnvlModel.SIGNED).
Definition receiver_key := EnvlToy.key EnvlModel.KRsa 51.
Definition user := mk 51 0 0 1 3.
Definition rsa_v := EnvlToy.the EnvlToy.no_env
  (EnvlModel.build_exchange EnvlToy.toy (EnvlModel.public_key receiver_key) package None receiver_key (Some (view user)) EnvlToy.cek32 EnvlToy.iv16 [] [6] None true None).
Definition response (v : EnvlModel.env) (i : cert) (pvno : Z) (salt pw : bytes) : kmsg :=
  {| q_pvno := pvno; q_extra := [user]; q_pairs := Some [Some {| f_cert := Some i; f_key := EnvKey v |}];
     q_prot := Some {| EnvlModel.g_oid := "1.2.840.113533.7.66.13"; EnvlModel.g_par := Some salt |}; q_rest := pw |}.
Definition by_password (pw : bytes) : wants :=
  {| z_pw := Some pw; z_type := EnvlModel.AName EnvlModel.NPwri; z_cert := 0; z_size := 1; z_index := 0; z_key := None; z_save := None |}.
Definition by_key (t : EnvlModel.expected) : wants :=
  {| z_pw := None; z_type := t; z_cert := 0; z_size := 1; z_index := 0; z_key := Some receiver_key; z_save := None |}.
Definition new_cert := mk 9 2 0 1 3.
Example C120_ex :
  validate_kga ktoy (response pw_v new_cert 3 [9] [3; 4]) (by_password [3; 4]) [root] [] = Ok new_key
  /\ validate_kga ktoy (response pw_v new_cert 2 [9] [3; 4]) (by_password [3; 4]) [root] [] = Err EValueError
  /\ validate_kga ktoy (response pw_v new_cert 3 [8] [3; 4]) (by_password [3; 4]) [root] [] = Err EValueError
  /\ validate_kga ktoy (response pw_v new_cert 3 [9] [3; 5]) (by_password [3; 4]) [root] [] = Err EBadMessageCheck
  /\ validate_kga ktoy (response pw_v (mk 8 2 0 1 3) 3 [9] [3; 4]) (by_password [3; 4]) [root] [] = Err EMismatchingKey
  /\ validate_kga ktoy (response pw_v new_cert 3 [9] [3; 4]) (by_password [3; 4]) [ca] [] = Err ESignerNotTrusted
  /\ validate_kga ktoy (response rsa_v new_cert 3 [9] [3; 4]) (by_key EnvlModel.Any) [root] [] = Ok new_key
  /\ validate_kga ktoy (response rsa_v new_cert 3 [9] [3; 4]) (by_key (EnvlModel.AName EnvlModel.NKari)) [root] [] = Err EValueError.
Proof. vm_compute. repeat split; reflexivity. Qed.
Print Assumptions C120_ex.
(** The hypotheses of the round trip are met. *)
Example C120_password_ex :
  EnvlSpec.laws (y_env ktoy) /\ y_signed ktoy package = Some (good_sd, []) /\ EnvlSpec.aes_key EnvlToy.cek32
  /\ EnvlSpec.protection_salt (y_env ktoy) (Some (as_env ktoy (response pw_v new_cert 3 [9] [3; 4]))) None [9]
  /\ exists v, EnvlModel.build_env_pwri (y_env ktoy) [3; 4] package EnvlToy.cek32 [8] EnvlToy.iv16 "pbkdf2" false EnvlModel.SIGNED = Ok v.
Proof.
  split; [exact EnvlToy.toy_laws|]. split; [exact (EnvlToy.de_en _ c_signed good_sd good_signed)|]. split; [right; right; reflexivity|].
  split; [do 2 eexists; split; [reflexivity|]; split; reflexivity|]. eexists. reflexivity.
Qed.
Print Assumptions C120_password_ex.
