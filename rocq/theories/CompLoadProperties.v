(** C75: composite signature keys survive saving and loading, and belong to the identifier they are loaded under. *)
From Coq Require Import String NArith.
From Verif Require Import Prelude CompSigModel CompSigSpec CompSigProofs CompLoadModel CompLoadSpec CompLoadProofs.
From Verif Require PqKeyModel PqKeySpec PqKeyProofs PqKeyProperties MlDsaWitness CompSigProperties.
Import ListNotations.
Open Scope Z_scope.

(** A public key of the draft, exported and read back under its identifier, is the same key. *)
Theorem C75_public_roundtrip : forall L k pss r, pub_reads L (pk_trad k) -> wf_pub k -> pub_row k pss r ->
  load_spki L (r_arc r) (export_public L k) = Ok k.
Proof. intros L k pss r HL W R. apply (public_roundtrip L k pss r r HL W R (proj1 R)). left. reflexivity. Qed.

(** What is read under an identifier: the ML-DSA half has the right parameter set and size; the traditional half is that of the
    draft, except that an RSA key may be of any size the draft combines with the parameter set. *)
Theorem C75_public_loaded_partial : forall L o d k, rsa_class L -> load_spki L o d = Ok k ->
  exists r, In r draft /\ r_arc r = o /\ wf_pub k /\ (exists rest, d = pk_pq_bytes k ++ rest) /\ r_dsa r = pk_pq k /\
  ((~ is_rsa (r_trad r) /\ pub_row k false r) \/
   (is_rsa (r_trad r) /\ exists r', pub_row k true r' /\ is_rsa (r_trad r'))).
Proof. exact public_loaded. Qed.
(** Finding: an RSA key is read under every RSA identifier with the same ML-DSA parameter set, whatever its size. *)
Theorem C75_public_size_refuted : forall L k pss r0 r, pub_reads L (pk_trad k) -> wf_pub k -> pub_row k pss r0 -> In r draft ->
  is_rsa (r_trad r0) -> is_rsa (r_trad r) -> r_dsa r = r_dsa r0 -> load_spki L (r_arc r) (export_public L k) = Ok k.
Proof. intros L k pss r0 r HL W R I A B D. apply (public_roundtrip L k pss r0 r HL W R I). right. auto. Qed.

(** A loaded private key is of the identifier's combination, its ML-DSA half comes from the first 32 bytes as a seed and its
    traditional half from all the others; a public key that goes with it, is its own. *)
Theorem C75_private_loaded : forall E L o v d pub k, load_one_asym E L o v d pub = Ok k ->
  exists r pss, r_arc r = o /\ priv_row k pss r /\
  PqKeyModel.from_private_bytes (c_pq E) (PqKeyModel.Dsa (sk_pq k)) (firstn 32 d) = Ok (sk_pq_key k) /\
  trad_read L (sk_trad k) (skipn 32 d) /\ rsa_size_ok (sk_trad k) /\
  match pub with None => True | Some b => v = 1 /\ load_spki L o b = Ok (public_key E k) end.
Proof. exact private_loaded. Qed.

(** Saved with its seed and loaded again, with or without the public key, a private key is the same. *)
Theorem C75_private_roundtrip : forall E L k seed r, pub_reads L (trad_public E (sk_trad k)) -> priv_reads L (sk_trad k) -> PqKeySpec.good_env (c_pq E) ->
  PqKeySpec.seeded (c_pq E) (PqKeyModel.Dsa (sk_pq k)) seed (sk_pq_key k) -> priv_row k true r ->
  exists d pub, save_one_asym E L k PqKeyModel.SEED = Ok (r_arc r, d, pub) /\ d = seed ++ l_enc_priv L (sk_trad k) /\
  load_one_asym E L (r_arc r) 1 d (Some pub) = Ok k /\ load_one_asym E L (r_arc r) 0 d None = Ok k /\ load_one_asym E L (r_arc r) 1 d None = Ok k.
Proof. intros E L k seed r HP HL HE HS R. apply private_roundtrip; assumption. Qed.

(** Findings: the other two save types. *)
Theorem C75_seed_and_raw_refuted : forall E L k, exists e, save_one_asym E L k PqKeyModel.SEED_AND_RAW = Err e.
Proof.
  intros E L k. unfold save_one_asym, export_private. destruct (priv_oid k true) as [o|e]; [|eexists; reflexivity]. cbn [bind].
  destruct (PqKeyModel.save_private _ _) as [x|e]; [|eexists; reflexivity]. cbn [bind].
  destruct (PqKeyModel.private_numbers _) as [s|e]; eexists; reflexivity.
Qed.
Theorem C75_raw_refuted : forall E L k b seed o d pub, sk_trad k = Ed25519Priv b ->
  (forall x, List.length x <> 32%nat -> l_ed25519_priv L x = None) -> PqKeySpec.good_env (c_pq E) ->
  PqKeySpec.seeded (c_pq E) (PqKeyModel.Dsa (sk_pq k)) seed (sk_pq_key k) ->
  save_one_asym E L k PqKeyModel.RAW = Ok (o, d, pub) -> forall v p k', load_one_asym E L o v d p <> Ok k'.
Proof.
  intros E L k b seed o d pub T HL HE [Ls FS] S v p k' H.
  destruct (PqKeyProofs.inv_seed (c_pq E) HE (PqKeyModel.Dsa (sk_pq k)) seed (sk_pq_key k) FS) as [(_ & Lp & _) _].
  unfold save_one_asym, export_private in S. destruct (priv_oid k true) as [o'|e] eqn:O; [|discriminate]. cbn [bind] in S.
  destruct (PqKeyModel.save_private _ _) as [x|e]; [|discriminate]. cbn [bind] in S. injection S as -> <- _.
  apply priv_oid_ok in O. destruct O as (r & (I & D & A) & <-). rewrite T in A. cbn [nearest priv_alg] in A. injection A as A.
  apply private_loaded in H. destruct H as (r' & pss & Q & (I' & _ & A') & _ & R & _). assert (r' = r) by (apply arc_inj; congruence). subst r'.
  rewrite <- A in A'. destruct (sk_trad k') as [| |b'| |]; cbn [priv_alg] in A'; try discriminate A'. cbn [trad_read] in R.
  rewrite HL in R; [discriminate|]. rewrite skipn_length, app_length, Lp, PqKeyProofs.priv_std.
  destruct (PqKeyProofs.small (PqKeyModel.Dsa (sk_pq k))) as [_ [G _]]. assert (X : (2560 <= PqKeySpec.std_priv (PqKeyModel.Dsa (sk_pq k)))%nat).
  { apply Nat.leb_le. destruct (sk_pq k); reflexivity. }
  lia.
Qed.

(** ** Non-vacuity *)
(** Encodings that are the value itself, and for RSA a tag, the size and the value. *)
Definition toyL : lib :=
  let ed d := if (List.length d =? 32)%nat then Some d else None in
  {| l_ed25519_pub := ed; l_ed448_pub := fun d => Some d; l_ec_point := fun _ d => Some d;
     l_rsa_pub_rest := fun d => match d with 48 :: _ => Some [] | _ => None end;
     l_der_pub := fun d => match d with 48 :: n :: b => Some (RsaPub (Z.to_N n) b) | _ => None end;
     l_ed25519_priv := ed; l_ed448_priv := fun d => Some d; l_x25519_priv := fun d => Some d; l_x448_priv := fun d => Some d;
     l_ec_priv_rest := fun _ => Some []; l_rsa_priv_rest := fun _ => Some [];
     l_der_priv := fun d => match d with 48 :: n :: b => Some (RsaPriv (Z.to_N n) b) | _ => None end;
     l_enc_pub := fun t => match t with Ed25519Pub b | Ed448Pub b | EcPub _ b => b | RsaPub n b => 48 :: Z.of_N n :: b | OtherPub => [] end;
     l_enc_priv := fun t => match t with Ed25519Priv b | Ed448Priv b | EcPriv _ b => b | RsaPriv n b => 48 :: Z.of_N n :: b | OtherPriv => [] end |}.
Lemma toyL_rsa : rsa_class toyL.
Proof.
  intros d t _ H. cbn [toyL l_der_pub] in H. destruct d as [|x d]; [discriminate|].
  destruct (Z.eq_dec x 48) as [->|N]; [destruct d as [|n b]; [discriminate|]; injection H as <-; eauto|].
  exfalso. destruct x as [|p|p]; try discriminate H. do 6 (destruct p as [p|p|]; try discriminate H). apply N. reflexivity.
Qed.
(** A 4096-bit key, read under the identifier of the 3072-bit combination. *)
Definition k4096 : pubkey := {| pk_pq := PqKeyModel.D65; pk_pq_bytes := repeat 5 1952; pk_trad := RsaPub 4096 [7] |}.
Lemma std65 : PqKeySpec.std_pub (PqKeyModel.Dsa PqKeyModel.D65) = 1952%nat. Proof. reflexivity. Qed.
Example C75_public_ex : wf_pub k4096 /\ rsa_class toyL /\ pub_reads toyL (pk_trad k4096) /\
  (exists r0 r, pub_row k4096 true r0 /\ In r draft /\ r_arc r0 = 43 /\ r_arc r = 41 /\ r_trad r = TRsa 3072 Pss /\ is_rsa (r_trad r0) /\ r_dsa r = r_dsa r0) /\
  load_spki toyL 41 (export_public toyL k4096) = Ok k4096.
Proof.
  assert (W : wf_pub k4096) by (unfold wf_pub; cbn [pk_pq pk_pq_bytes k4096]; rewrite repeat_length; symmetry; exact std65).
  assert (P : pub_reads toyL (pk_trad k4096)) by (split; reflexivity).
  set (r0 := nth 6 draft (Row 0 PqKeyModel.D44 TEd448 "" None Sha256)). set (r := nth 4 draft (Row 0 PqKeyModel.D44 TEd448 "" None Sha256)).
  assert (I0 : In r0 draft) by (vm_compute; tauto). assert (Ir : In r draft) by (vm_compute; tauto).
  assert (R0 : pub_row k4096 true r0) by (split; [exact I0|split; reflexivity]).
  split; [exact W|]. split; [exact toyL_rsa|]. split; [exact P|]. split.
  - exists r0, r. split; [exact R0|]. split; [exact Ir|]. split; [reflexivity|]. split; [reflexivity|]. split; [reflexivity|]. split; [exact I|reflexivity].
  - exact (C75_public_size_refuted toyL k4096 true r0 r P W R0 Ir I I eq_refl).
Qed.
(** A key pair of ML-DSA-44 with Ed25519, saved and loaded. *)
Definition toyE : env := let e := CompSigProperties.toy in
  {| c_pq := c_pq e; c_hash := c_hash e; c_pub := fun _ => repeat 9 32; c_rsa_sign := c_rsa_sign e; c_rsa_verify := c_rsa_verify e;
     c_ec_sign := c_ec_sign e; c_ec_verify := c_ec_verify e; c_ed25519_sign := c_ed25519_sign e; c_ed25519_verify := c_ed25519_verify e;
     c_ed448_sign := c_ed448_sign e; c_ed448_verify := c_ed448_verify e |}.
Example C75_private_ex : exists k r, pub_reads toyL (trad_public toyE (sk_trad k)) /\ priv_reads toyL (sk_trad k) /\ PqKeySpec.good_env (c_pq toyE) /\
  PqKeySpec.seeded (c_pq toyE) (PqKeyModel.Dsa (sk_pq k)) MlDsaWitness.ex_xi (sk_pq_key k) /\ priv_row k true r /\ r_arc r = 39 /\
  sk_trad k = Ed25519Priv (repeat 8 32) /\ (forall x, List.length x <> 32%nat -> l_ed25519_priv toyL x = None) /\
  exists d pub, load_one_asym toyE toyL 39 1 d (Some pub) = Ok k.
Proof.
  destruct PqKeyProperties.ex_dsa_key as (k0 & H). set (k := {| sk_pq := PqKeyModel.D44; sk_pq_key := k0; sk_trad := Ed25519Priv (repeat 8 32) |}).
  set (r := nth 2 draft (Row 0 PqKeyModel.D44 TEd448 "" None Sha256)).
  assert (R : priv_row k true r) by (split; [vm_compute; tauto|split; reflexivity]).
  exists k, r. split; [reflexivity|]. split; [reflexivity|]. split; [exact PqKeyProperties.toyE_good|]. split; [exact H|]. split; [exact R|]. split; [reflexivity|]. split; [reflexivity|].
  split; [intros x N; cbn [toyL l_ed25519_priv]; apply Nat.eqb_neq in N; rewrite N; reflexivity|].
  destruct (C75_private_roundtrip toyE toyL k _ r eq_refl eq_refl PqKeyProperties.toyE_good H R) as (d & pub & _ & _ & Q & _). exists d, pub. exact Q.
Qed.

Print Assumptions C75_public_roundtrip.
Print Assumptions C75_public_loaded_partial.
Print Assumptions C75_public_size_refuted.
Print Assumptions C75_private_loaded.
Print Assumptions C75_private_roundtrip.
Print Assumptions C75_seed_and_raw_refuted.
Print Assumptions C75_raw_refuted.
