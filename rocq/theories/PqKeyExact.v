(** What exactly is signed and verified through key objects, which public keys are accepted, and what a passed check of
    an exported key means. *)
From Verif Require Import PqKeyModel PqKeySpec PqKeyProofs PqKeyMore PqKeyUse PreludeFacts LatFacts.
From Verif Require MlDsaTop SlhTop SlhHt.
Local Open Scope Z_scope.

Section Exact.
Variable E : env.

(** * ML-DSA *)
Theorem dsa_signed a fuel priv data h ctx pre rnd sg : dsa_sign E a fuel priv data h ctx pre rnd = Some (Ok sg) ->
  (length ctx <= 255)%nat /\ exists m r, signed_message E (dsa_effective h) pre ctx data = Some m /\
  MlDsaModel.sign_internal (e_dsa E) (dsa_params a) fuel priv m r = Some (Ok sg).
Proof.
  unfold dsa_sign. destruct (Nat.ltb_spec 255 (length ctx)) as [L|L]; [discriminate|]. intro S. split; [exact L|].
  assert (P : forall o, match MlDsaModel.sign (e_dsa E) (dsa_params a) fuel priv data ctx None with
        | None => None
        | Some (Ok (Some (x :: s))) => Some (Ok (x :: s))
        | Some (Ok _) => Some (Err EValueError)
        | Some (Err e) => Some (Err e)
        end = Some (Ok o) -> exists m r, Some (pure_message ctx data) = Some m /\
      MlDsaModel.sign_internal (e_dsa E) (dsa_params a) fuel priv m r = Some (Ok o)).
  { intros o H. destruct (MlDsaModel.sign _ _ _ _ _ _ _) as [[[s0|]|]|] eqn:Si; try discriminate. destruct s0 as [|x s0]; [discriminate|].
    assert (o = x :: s0) by congruence. subst o. destruct (MlDsaTop.sign_ok _ _ _ _ _ _ _ _ Si) as [_ Si']. eexists. eexists. split; [reflexivity|exact Si']. }
  destruct h as [[]|]; cbn [dsa_check_hash] in S; try (exact (P sg S)).
  cbn [hash_oid] in S. cbn [dsa_effective signed_message std_oid option_map]. eexists. exists rnd. split; [reflexivity|].
  change (pre_mp ctx) with (prehash_message ctx) in S.
  destruct (MlDsaModel.sign_internal _ _ _ _ _ _) as [[[|x s0]|]|]; try discriminate. exact S.
Qed.
Theorem dsa_verified a pub sg data h pre ctx : dsa_verify E a pub sg data h pre ctx = Ok tt <->
  (length ctx <= 255)%nat /\ (h = None \/ h = Some HSha512) /\
  exists m, signed_message E h pre ctx data = Some m /\ MlDsaModel.verify_internal (e_dsa E) (dsa_params a) pub m sg = Ok true.
Proof.
  unfold dsa_verify. destruct (Nat.ltb_spec 255 (length ctx)) as [L|L]; cbn [negb guard bind]; [split; [discriminate|intros [H _]; lia]|].
  destruct h as [h|].
  - destruct h; cbn [dsa_check_hash bind]; try (split; [discriminate|intros (_ & [H|H] & _); discriminate]).
    cbn [hash_oid bind signed_message std_oid option_map]. change (pre_mp ctx) with (prehash_message ctx). split.
    + intro H. split; [exact L|]. split; [right; reflexivity|]. eexists. split; [reflexivity|].
      destruct (MlDsaModel.verify_internal _ _ _ _ _) as [[|]|]; try discriminate. reflexivity.
    + intros (_ & _ & m & [= <-] & V). rewrite V. reflexivity.
  - cbn [dsa_check_hash bind signed_message]. rewrite MlDsaTop.verify_eq by exact L. change ([0; Z.of_nat (length ctx)] ++ ctx ++ data) with (pure_message ctx data). split.
    + intro H. split; [exact L|]. split; [left; reflexivity|]. eexists. split; [reflexivity|].
      destruct (MlDsaModel.verify_internal _ _ _ _ _) as [[|]|]; try discriminate. reflexivity.
    + intros (_ & _ & m & [= <-] & V). rewrite V. reflexivity.
Qed.

(** * SLH-DSA *)
Lemma slh_pure ctx data : (length ctx <= 255)%nat -> SlhModel.pure_msg ctx data = pure_message ctx data.
Proof.
  intro L. unfold SlhModel.pure_msg, SlhModel.byte1, pure_message. change (Z.land 0 255) with 0.
  change 255 with (Z.ones 8). rewrite Z.land_ones by lia. rewrite Z.mod_small by lia. reflexivity.
Qed.
Lemma slh_mode f s h : (slh_check_hash f s h = None /\ slh_effective f s h = None) \/
  exists x o, slh_check_hash f s h = Some x /\ slh_effective f s h = Some x /\ hash_oid x = Ok o /\ std_oid x = Some o.
Proof.
  unfold slh_check_hash, slh_effective. destruct h as [h|]; [|left; auto].
  replace (slh_hash_of f s) with (std_slh_hash f s) by (destruct f, s; reflexivity).
  destruct (hname_eqb h (std_slh_hash f s)) eqn:Q; [right|left; auto].
  assert (h = std_slh_hash f s) by (destruct h, (std_slh_hash f s); (reflexivity || discriminate Q)). subst h.
  destruct f, s; eexists; eexists; (split; [reflexivity|]; split; [reflexivity|]; split; reflexivity).
Qed.
Theorem slh_signed f s priv data h ctx pre sg : slh_sign E f s priv data h ctx pre = Ok sg ->
  (length ctx <= 255)%nat /\ exists m, signed_message E (slh_effective f s h) pre ctx data = Some m /\
  SlhModel.slh_sign_internal (e_slh E) (slh_params f s) m priv None = Ok sg.
Proof.
  unfold slh_sign. cbv zeta. destruct (Nat.ltb_spec 255 (length ctx)) as [L|L]; cbn [negb guard bind]; [discriminate|]. intro S. split; [exact L|].
  destruct (slh_mode f s h) as [[Q1 Q2]|(x & o & Q1 & Q2 & Q3 & Q4)]; rewrite Q1 in S; rewrite Q2; cbn [signed_message].
  - eexists. split; [reflexivity|]. unfold SlhModel.slh_sign in S. rewrite (proj2 (Nat.ltb_ge _ _) L) in S. rewrite slh_pure in S by exact L.
    destruct (SlhModel.slh_sign_internal _ _ _ _ _) as [y|]; cbn [bind] in S; [|discriminate]. destruct y; [discriminate|]. exact S.
  - rewrite Q4. eexists. split; [reflexivity|]. rewrite Q3 in S. cbn [bind] in S. change (pre_mp ctx) with (prehash_message ctx) in S.
    destruct (SlhModel.slh_sign_internal _ _ _ _ _) as [y|]; cbn [bind] in S; [|discriminate]. destruct y; [discriminate|]. exact S.
Qed.
Theorem slh_verified f s pub sg data h pre ctx : slh_verify E f s pub sg data h pre ctx = Ok tt <->
  (length ctx <= 255)%nat /\ exists m, signed_message E (slh_effective f s h) pre ctx data = Some m /\
  SlhModel.slh_verify_internal (e_slh E) (slh_params f s) m sg pub = Ok true.
Proof.
  unfold slh_verify. cbv zeta. destruct (Nat.ltb_spec 255 (length ctx)) as [L|L]; cbn [negb guard bind]; [split; [discriminate|intros [H _]; lia]|].
  destruct (slh_mode f s h) as [[Q1 Q2]|(x & o & Q1 & Q2 & Q3 & Q4)]; rewrite Q1, Q2; cbn [signed_message].
  - unfold SlhModel.slh_verify. rewrite (proj2 (Nat.ltb_ge _ _) L). rewrite slh_pure by exact L. split.
    + intro H. split; [exact L|]. eexists. split; [reflexivity|]. destruct (SlhModel.slh_verify_internal _ _ _ _ _) as [[|]|]; try discriminate. reflexivity.
    + intros (_ & m & [= <-] & V). rewrite V. reflexivity.
  - rewrite Q3, Q4. cbn [bind option_map]. change (pre_mp ctx) with (prehash_message ctx). split.
    + intro H. split; [exact L|]. eexists. split; [reflexivity|]. destruct (SlhModel.slh_verify_internal _ _ _ _ _) as [[|]|]; try discriminate. reflexivity.
    + intros (_ & m & [= <-] & V). rewrite V. reflexivity.
Qed.

(** * Public keys *)
Theorem public_bytes a d k : from_public_bytes a d = Ok k <-> length d = std_pub a /\ k = {| p_alg := a; p_bytes := d |}.
Proof.
  unfold from_public_bytes. rewrite pub_std. destruct (Nat.eqb_spec (length d) (std_pub a)) as [L|L]; cbn [guard bind].
  - split; [intros [= <-]; auto|intros [_ ->]; reflexivity].
  - split; [discriminate|intros [H _]; contradiction].
Qed.

(** * A passed check of an exported key *)
Theorem validate_sound k x t s : k_seed k = Some s -> (validate_export k x t = Ok tt <-> said (k_alg k) x t s (k_priv k)).
Proof.
  intro Hs. unfold validate_export, said, private_numbers. rewrite Hs.
  assert (B : forall u v e, guard (bytes_eqb u v) e = Ok tt <-> u = v).
  { intros u v e. destruct (bytes_eqb u v) eqn:Q; cbn [guard].
    - apply bytes_eqb_eq in Q. split; auto.
    - split; [discriminate|]. intros ->. rewrite bytes_eqb_refl in Q. discriminate. }
  destruct (k_alg k) as [a|a|f sl]; cbn [is_ml].
  3: destruct t; cbn [bind]; apply B.
  all: destruct (dec_choice _ x) as [[c rest]| |]; [|split; discriminate|split; discriminate].
  all: destruct rest as [|y rest]; [|split; [discriminate|intros [= H]]].
  all: cbn [guard bind]; destruct c as [s0|r0|s0 r0], t; cbn [guard bind]; try (split; [discriminate|intro H; discriminate H]).
  all: try (destruct (bytes_eqb s0 s) eqn:Q; cbn [guard bind]; [apply bytes_eqb_eq in Q; subst s0|
       split; [discriminate|intro H; assert (s0 = s) by congruence; subst; rewrite bytes_eqb_refl in Q; discriminate]]).
  all: try (split; reflexivity).
  all: rewrite B; split; [intros ->; reflexivity|intro H; congruence].
Qed.
End Exact.
