(** Proofs about SignedData that is built, and about what the signature does not cover. *)
From Coq Require Import String Ascii Lia.
From Verif Require Import Prelude PyStr ProtTab CertChainModel CertChainSpec BitModel SdModel SdSpec SdAlgs SdProofs.
From Verif Require Import ProtMac ChamProofs EnvlProofs CertChainProofs PyStrProofs.
Open Scope string_scope.
Open Scope Z_scope.
Open Scope list_scope.

(** ** Not covered *)

Lemma attrs_free L d n i dir os save k l : accepted L d n i dir os save k ->
  (forall md, attributes_give L n l md -> (exists info more, d_signers d = info :: more /\ attributes_give L n (s_attrs info) md)
              -> accepted L (with_attrs d l) n i dir os save k).
Proof.
  intros (H1 & H2 & H3 & outer & content & certs & c & info & more & s & h & md & H4 & H5 & H6 & H7 & H8 & H9 & H10 & H11
            & H12 & H13 & H14 & H15 & H16 & H17 & H18 & H19 & H20 & H21 & H22) md' Hl (info' & more' & E & Hi).
  rewrite H9 in E. injection E as <- <-. assert (md' = md) as ->. { apply attrs_iff in H12, Hi. congruence. }
  unfold accepted, with_attrs. cbn [d_version d_digests d_encap d_certs d_signers]. rewrite H9 in *. cbn [List.length] in *.
  split; [exact H1|]. split; [exact H2|]. split; [exact H3|].
  exists outer, content, certs, c, {| s_version := s_version info; s_sid := s_sid info; s_digest := s_digest info; s_attrs := l; s_alg := s_alg info; s_sig := s_sig info |}, more, s, h, md.
  cbn [s_version s_sid s_digest s_attrs s_alg s_sig]. repeat (split; [assumption || reflexivity|]). exact H22.
Qed.
Lemma ski_free L d n i dir os save k x : accepted L d n i dir os save k -> accepted L (with_ski d x) n i dir os save k.
Proof.
  intros (H1 & H2 & H3 & outer & content & certs & c & info & more & s & h & md & H4 & H5 & H6 & H7 & H8 & H9 & H10 & H11
            & H12 & H13 & H14 & H15 & H16 & H17 & H18 & H19 & H20 & H21 & H22).
  unfold accepted, with_ski. cbn [d_version d_digests d_encap d_certs d_signers]. rewrite H9 in *. cbn [List.length] in *.
  split; [exact H1|]. split; [exact H2|]. split; [exact H3|].
  exists outer, content, certs, c, {| s_version := s_version info; s_sid := SidSki x; s_digest := s_digest info; s_attrs := s_attrs info; s_alg := s_alg info; s_sig := s_sig info |}, more, s, h, md.
  cbn [s_version s_sid s_digest s_attrs s_alg s_sig]. repeat (split; [assumption || reflexivity|]). split; [exists x; reflexivity|].
  repeat (split; [assumption || reflexivity|]). exact H22.
Qed.
Lemma more_free L d n i dir os save k r : accepted L d n i dir os save k -> S (List.length r) = n -> accepted L (with_more d r) n i dir os save k.
Proof.
  intros (H1 & H2 & H3 & outer & content & certs & c & info & more & s & h & md & H4 & H5 & H6 & H7 & H8 & H9 & H10 & H11
            & H12 & H13 & H14 & H15 & H16 & H17 & H18 & H19 & H20 & H21 & H22) Hr.
  unfold accepted, with_more. cbn [d_version d_digests d_encap d_certs d_signers]. rewrite H9 in *. cbn [List.length] in *.
  split; [exact H1|]. split; [exact H2|]. split; [exact Hr|].
  exists outer, content, certs, c, info, r, s, h, md. repeat (split; [assumption || reflexivity|]). exact H22.
Qed.
(** A digest that is not the one of the content. *)
Lemma digest_error L d n i dir os save k l md content : accepted L d n i dir os save k -> d_encap d = {| n_type := "id_ct_KP_aKeyPackage"; n_content := Some content |} ->
  attributes_give L n l md -> (forall h, md <> l_hash L h content) -> validate_signed L (with_attrs d l) n i dir os save = Err EAttribute.
Proof.
  intros (H1 & H2 & H3 & outer & content' & certs & c & info & more & s & h & md' & H4 & H5 & (pkg & o & H6 & H6') & H7 & H8 & H9 & H10 & (ski & H11)
            & H12 & H13 & H14 & H15 & H16 & H17 & H18 & H19 & H20 & H21 & H22) Hc Hl Hm.
  rewrite H5 in Hc. injection Hc as ->. unfold validate_signed, with_attrs. cbn [d_version d_digests d_encap d_certs d_signers].
  rewrite H1. cbn [guard bind Z.eqb Pos.eqb]. apply Nat.eqb_eq in H2. rewrite H2. cbn [guard bind]. rewrite H4, H5.
  cbn [n_type n_content guard bind]. change (String.eqb "id_ct_KP_aKeyPackage" KEY_PACKAGE) with true. cbn [guard bind].
  rewrite H6. cbn [bind]. assert (check_package L pkg n i save = Ok k) as -> by (apply package_iff; exists o; exact H6').
  cbn [bind]. apply SdProofs.ordered_iff in H7. rewrite H7. cbn [bind]. destruct certs as [|c' certs]; [discriminate|]. injection H8 as ->. rewrite H9.
  match goal with |- bind ?X _ = _ => assert (X = Ok (md, s_alg info, s)) as -> end.
  { apply signers_iff. rewrite H9 in H3. cbn [List.length] in *. split; [exact H3|]. eexists _, more, h. split; [reflexivity|]. cbn [s_version s_sid s_digest s_attrs s_alg s_sig].
    split; [exact H10|]. split; [exists ski; exact H11|]. repeat (split; [assumption|]). reflexivity. }
  cbn [bind]. unfold check_signature, digest_for_cmp, compute_hash. rewrite (sig_stateless _ _ H16). destruct (proj2 (sig_hash_iff _ _) H16) as [_ ->]. cbn [bind].
  rewrite (six_instance h (sig_hash_six _ _ H16)). cbn [bind].
  assert (bytes_eqb md (l_hash L h content) = false) as ->.
  { apply Bool.not_true_is_false. intros C. apply bytes_eqb_iff in C. exact (Hm h C). }
  reflexivity.
Qed.

(** ** The chain *)

Lemma first_consecutive E pool ch : consecutive (first_issuer E pool) ch -> consecutive (signed_by E) ch.
Proof.
  induction ch as [|a [|b ch] IH]; [exact id|exact id|]. cbn [consecutive]. intros [[H _] H2]. split; [exact H|]. apply IH, H2.
Qed.
Lemma chain_signed L l certs : ordered L l certs -> consecutive (signed_by (l_chain L)) certs.
Proof.
  intros (cs & _ & [[H1 ->]|(f & r & x & m & a & b & _ & _ & _ & H4 & H5 & H6 & _)]).
  - destruct cs as [|? [|? ?]]; cbn in *; try exact I. lia.
  - apply build_chain_spec in H4, H5. destruct H4 as (ra & _ & H4 & _), H5 as (rb & _ & H5 & _). subst certs.
    destruct (List.length b <? List.length a)%nat; eapply first_consecutive; eassumption.
Qed.

(** ** Building *)

Lemma six_oid : forall h, In h six -> exists o, sha_alg_name_to_oid h = Ok o /\ sha_alg_name_to_oid (strip is_space h) = Ok o /\ hash_id o h
  /\ split ","%char h = [h] /\ h <> "".
Proof.
  intros h H. repeat destruct H as [<-|H]; try (destruct H);
    [exists "id_sha224" | exists "id_sha256" | exists "id_sha384" | exists "id_sha512" | exists "id_hash_algs.11" | exists "id_hash_algs.12"];
    (split; [vm_compute; reflexivity|]); (split; [vm_compute; reflexivity|]); (split; [left; cbn; tauto|]); (split; [reflexivity|discriminate]).
Qed.
Lemma or_name_ask d h : (d = None \/ d = Some "" \/ d = Some h) -> or_name d h = h.
Proof. unfold or_name. intros [-> | [-> | ->]]; [reflexivity|reflexivity|]. destruct (String.eqb h ""); reflexivity. Qed.
Lemma built_signed L k c w dig cs k1 h o one sg dir os certs :
  sd_laws L -> asked L k w h -> (dig = None \/ dig = Some "" \/ dig = Some h) -> certified L k c o h ->
  ordered L (map ChCert cs) certs -> hd_error certs = Some c -> chain_trusted L certs dir os ->
  l_one L k1 "raw" = Ok one ->
  l_sign L k (l_encapenc L {| n_type := "id_ct_KP_aKeyPackage"; n_content := Some (l_pkgenc L [one]) |}) h = Ok sg ->
  exists d, build_signed L k c w None dig false (Some cs) (Some [k1]) None = Ok d /\ validate_signed L d 1 0 dir os None = Ok k1.
Proof.
  intros [W1 W2 W3] Hw Hd (C1 & C2 & C3 & (ski & C4) & C5 & C6) Ho Hh Ht H1 Hs.
  pose proof (sig_hash_six _ _ C2) as H6. destruct (six_oid h H6) as (do & D1 & D2 & D3 & D4 & D5).
  eexists. split.
  - unfold build_signed. cbn [guard bind]. assert (match w with Some x => Ok x | None => l_defhash L k end = Ok h) as ->.
    { destruct Hw as [-> | [-> Hw]]; [reflexivity|exact Hw]. }
    cbn [bind]. rewrite (or_name_ask _ _ Hd). cbn [build_package mapM]. rewrite H1. cbn [bind mapM]. unfold digest_algs. rewrite D4. cbn [mapM]. rewrite D2. cbn [bind mapM].
    unfold build_signers, build_signer. cbn [bind]. rewrite (or_name_ask (Some h) h) by tauto. unfold compute_hash. rewrite (six_instance h H6). cbn [bind]. rewrite C1. cbn [bind].
    rewrite D1. cbn [bind]. unfold encapsulate. cbv iota. unfold KEY_PACKAGE. rewrite Hs. cbn [bind]. reflexivity.
  - apply validate_iff. unfold accepted, encapsulate, KEY_PACKAGE. cbn [d_version d_digests d_encap d_certs d_signers List.length]. split; [reflexivity|]. split; [reflexivity|]. split; [reflexivity|].
    do 9 eexists. split; [reflexivity|]. split; [reflexivity|]. split.
    { destruct (W3 _ _ _ H1) as [V1 V2]. exists [one], one. split; [apply W1|]. split; [reflexivity|]. split; [reflexivity|]. split; [exact V1|]. split; [exact V2|]. discriminate. }
    split; [exact Ho|]. split; [exact Hh|]. split; [reflexivity|]. cbn [s_version s_sid s_digest s_attrs s_alg s_sig].
    split; [reflexivity|]. split; [unfold signer_id; rewrite C4; eexists; reflexivity|].
    split; [apply attrs_iff|split; [reflexivity|split; [reflexivity|split; [exact D3|]]]].
    { unfold check_attrs, signed_attrs. cbn [attrs_loop t_type t_vals].
      change (String.eqb CONTENT_TYPE CONTENT_TYPE) with true. change (String.eqb MESSAGE_DIGEST CONTENT_TYPE) with false. change (String.eqb MESSAGE_DIGEST MESSAGE_DIGEST) with true.
      cbv iota. cbn [existsb]. assert (bytes_eqb (l_oidenc L KEY_PACKAGE) (l_oidenc L KEY_PACKAGE) = true) as -> by (apply bytes_eqb_iff; reflexivity).
      cbn [orb List.length Nat.eqb guard bind]. rewrite W2. cbn [bind guard]. reflexivity. }
    cbn [g_oid]. split; [exact C2|]. split; [exact C3|]. split; [reflexivity|]. destruct (C6 _ _ Hs) as [V1 V2]. split; [exact V1|]. split; [exact Ht|].
    split; [intros He _; exact (V2 He)|]. exact C5.
Qed.

Lemma build_inv L k c w content dig bad chain keys d : build_signed L k c w content dig bad chain keys None = Ok d ->
  exists sh so do digest sg, (w = Some sh \/ (w = None /\ l_defhash L k = Ok sh)) /\ l_sigoid L k sh = Ok so
    /\ sha_alg_name_to_oid (or_name dig sh) = Ok do
    /\ d_signers d = [{| s_version := 3; s_sid := signer_id L c; s_digest := {| g_oid := do; g_par := None |}; s_attrs := signed_attrs L digest;
                         s_alg := {| g_oid := so; g_par := None |}; s_sig := Some (if bad then sg ++ [65; 65] else sg) |}]
    /\ l_sign L k (l_encapenc L (d_encap d)) sh = Ok sg
    /\ (forall ks, keys = Some ks -> exists p, mapM (fun k => l_one L k "raw") ks = Ok p /\ n_content (d_encap d) = Some (l_pkgenc L p)).
Proof.
  unfold build_signed. intros H. bd H as [], A. apply bind_inv in H. destruct H as (sh & B & H). apply bind_inv in H. destruct H as (e & C & H).
  apply bind_inv in H. destruct H as (ds & D & H). apply bind_inv in H. destruct H as (is & F & H). injection H as <-.
  unfold build_signers in F. cbn [bind] in F. apply bind_inv in F. destruct F as (i & F & G). injection G as <-.
  unfold build_signer in F. cbn [bind] in F. apply bind_inv in F. destruct F as (digest & F1 & F). apply bind_inv in F. destruct F as (so & F2 & F).
  apply bind_inv in F. destruct F as (do & F3 & F). apply bind_inv in F. destruct F as (sg & F4 & F). injection F as <-.
  assert (or_name (Some (or_name dig sh)) sh = or_name dig sh) as E.
  { unfold or_name. destruct dig as [x|]; [|destruct (String.eqb sh ""); reflexivity]. destruct (String.eqb x "") eqn:X; [destruct (String.eqb sh ""); reflexivity|]. rewrite X. reflexivity. }
  rewrite E in F3. exists sh, so, do, digest, sg.
  split; [destruct w; [left; congruence|right; split; [reflexivity|exact B]]|]. split; [exact F2|]. split; [exact F3|]. split; [reflexivity|]. split; [exact F4|].
  intros ks ->. apply bind_inv in C. destruct C as (p & C1 & C2). assert (e = l_pkgenc L p) as -> by congruence. exists p. split; [exact C1|reflexivity].
Qed.
Lemma instance_named name n : hash_name_to_instance name = Ok n -> hash_named name n.
Proof.
  unfold hash_name_to_instance. intros H. apply bind_inv in H. destruct H as (x & A & H). apply bind_inv in H. destruct H as (? & _ & H). injection H as <-.
  destruct (has_char "-"%char name) eqn:D.
  - right. unfold part1 in A. destruct (split "-"%char name) as [|a [|b r]]; try discriminate A. injection A as <-. exists a, r. reflexivity.
  - left. split; [|congruence]. intros I. assert (has_char "-"%char name = true); [|congruence].
    apply has_char_spec. clear -I. induction name as [|c r IH]; cbn in *; [exact I|]. destruct I as [I|I]; [left; exact I|right; exact (IH I)].
Qed.
Lemma built_attributes L k c w content dig bad chain keys d : build_signed L k c w content dig bad chain keys None = Ok d ->
  exists sh e n, asked L k w sh /\ n_content (d_encap d) = Some e /\ hash_named (or_name dig sh) n
    /\ map s_attrs (d_signers d) = [[{| t_type := "id_contentType"; t_vals := [l_oidenc L "id_ct_KP_aKeyPackage"] |};
                                     {| t_type := "id_messageDigest"; t_vals := [l_octenc L (l_hash L n e)] |}]].
Proof.
  unfold build_signed. intros H. bd H as [], A. apply bind_inv in H. destruct H as (sh & B & H). apply bind_inv in H. destruct H as (e & C & H).
  apply bind_inv in H. destruct H as (ds & D & H). apply bind_inv in H. destruct H as (is & F & H). injection H as <-.
  unfold build_signers in F. cbn [bind] in F. apply bind_inv in F. destruct F as (i & F & G). injection G as <-.
  unfold build_signer in F. cbn [bind] in F. apply bind_inv in F. destruct F as (digest & F1 & F). apply bind_inv in F. destruct F as (so & F2 & F).
  apply bind_inv in F. destruct F as (do & F3 & F). apply bind_inv in F. destruct F as (sg & F4 & F). injection F as <-.
  assert (or_name (Some (or_name dig sh)) sh = or_name dig sh) as E.
  { unfold or_name. destruct dig as [x|]; [|destruct (String.eqb sh ""); reflexivity]. destruct (String.eqb x "") eqn:X; [destruct (String.eqb sh ""); reflexivity|]. rewrite X. reflexivity. }
  rewrite E in F1. unfold compute_hash in F1. apply bind_inv in F1. destruct F1 as (n & N & F1). injection F1 as <-.
  exists sh, e, n. split; [destruct w; [left; congruence|right; split; [reflexivity|exact B]]|]. split; [reflexivity|]. split; [apply instance_named, N|reflexivity].
Qed.
Lemma mapM_each A B (f : A -> result B) l : forall r, mapM f l = Ok r -> Forall2 (fun a b => f a = Ok b) l r.
Proof.
  induction l as [|a l IH]; intros r H; cbn [mapM] in H; [injection H as <-; constructor|].
  apply bind_inv in H. destruct H as (x & X & H). apply bind_inv in H. destruct H as (y & Y & H). injection H as <-. constructor; [exact X|apply IH, Y].
Qed.
Lemma built_frame L k c w content dig bad chain keys infos d : build_signed L k c w content dig bad chain keys infos = Ok d ->
  d_version d = 3 /\ d_certs d = map ChCert (match chain with Some cs => cs | None => [c] end)
  /\ n_type (d_encap d) = "id_ct_KP_aKeyPackage"
  /\ (keys = None -> n_content (d_encap d) = content)
  /\ (forall is, infos = Some is -> d_signers d = is)
  /\ exists sh, asked L k w sh /\ Forall2 (fun n g => sha_alg_name_to_oid (strip is_space n) = Ok (g_oid g) /\ g_par g = None)
                                  (split "," (or_name dig sh)) (d_digests d).
Proof.
  unfold build_signed. intros H. bd H as [], A. apply bind_inv in H. destruct H as (sh & B & H). apply bind_inv in H. destruct H as (e & C & H).
  apply bind_inv in H. destruct H as (ds & D & H). apply bind_inv in H. destruct H as (is & F & H). injection H as <-.
  split; [reflexivity|]. split; [reflexivity|]. split; [reflexivity|].
  split; [intros ->; destruct content as [x|]; [injection C as <-; reflexivity|discriminate C]|]. split; [intros l ->; cbn; congruence|].
  exists sh. split; [destruct w; [left; congruence|right; split; [reflexivity|exact B]]|].
  cbn [d_digests]. apply mapM_each in D. induction D as [|n g l r G D IH]; constructor; [|exact IH].
  apply bind_inv in G. destruct G as (o & G & X). injection X as <-. split; [exact G|reflexivity].
Qed.
Lemma built_nothing L k c w dig bad chain infos : build_signed L k c w None dig bad chain None infos = Err EValueError.
Proof. reflexivity. Qed.
Lemma built_no_ski L k c w content dig bad chain keys d n i dir os save key : build_signed L k c w content dig bad chain keys None = Ok d ->
  validate_signed L d n i dir os save = Ok key -> exists x, l_ski L c = Some x.
Proof.
  intros H V. apply build_inv in H. destruct H as (sh & so & do & digest & sg & _ & _ & _ & E & _). apply validate_iff in V.
  destruct V as (_ & _ & _ & outer & ct & certs & c' & info & more & s & h & md & _ & _ & _ & _ & _ & H9 & _ & (x & H11) & _).
  rewrite E in H9. injection H9 as <- <-. cbn [s_sid] in H11. unfold signer_id in H11. destruct (l_ski L c) as [y|]; [exists y; reflexivity|discriminate].
Qed.
Lemma built_digest L k c w content dig bad chain keys d n i dir os save key so h : build_signed L k c w content dig bad chain keys None = Ok d ->
  validate_signed L d n i dir os save = Ok key ->
  (forall sh, asked L k w sh -> l_sigoid L k sh = Ok so -> In (so, h) sig_hashes -> exists do, sha_alg_name_to_oid (or_name dig sh) = Ok do /\ hash_id do h).
Proof.
  intros H V sh Hw Hs Hh. apply build_inv in H. destruct H as (sh' & so' & do & digest & sg & W & F2 & F3 & E & _).
  assert (sh' = sh) as -> by (destruct Hw as [-> | [-> ?]], W as [W|[? ?]]; congruence). assert (so' = so) as -> by congruence.
  apply validate_iff in V.
  destruct V as (_ & _ & _ & outer & ct & certs & c' & info & more & s & h' & md & _ & _ & _ & _ & _ & H9 & _ & _ & _ & _ & _ & H15 & H16 & _).
  rewrite E in H9. injection H9 as <- <-. cbn [s_digest s_alg g_oid] in H15, H16. exists do. split; [exact F3|]. rewrite (sig_hash_fun _ _ _ Hh H16). exact H15.
Qed.
Lemma mapM_length A B (f : A -> result B) l : forall r, mapM f l = Ok r -> List.length r = List.length l.
Proof.
  induction l as [|a l IH]; intros r H; cbn [mapM] in H; [injection H as <-; reflexivity|].
  apply bind_inv in H. destruct H as (x & _ & H). apply bind_inv in H. destruct H as (y & H1 & H). injection H as <-. cbn. f_equal. apply IH, H1.
Qed.
Lemma built_one L k c w content dig bad chain ks d n i dir os save key : sd_laws L -> build_signed L k c w content dig bad chain (Some ks) None = Ok d ->
  validate_signed L d n i dir os save = Ok key -> List.length ks = 1%nat.
Proof.
  intros W H V. apply build_inv in H. destruct H as (sh' & so' & do & digest & sg & _ & _ & _ & E & _ & K). destruct (K ks eq_refl) as (p & K1 & K2).
  apply validate_iff in V.
  destruct V as (_ & _ & H3 & outer & ct & certs & c' & info & more & s & h' & md & _ & H5 & (pkg & o & H6 & H7 & _) & _).
  rewrite E in H3. cbn in H3. rewrite H5 in K2. cbn in K2. injection K2 as ->. rewrite (w_pkg L W) in H6. injection H6 as <-.
  rewrite <- (mapM_length _ _ _ _ _ K1). congruence.
Qed.
Lemma built_bad L k c w content dig chain keys d n i dir os save key : build_signed L k c w content dig true chain keys None = Ok d ->
  validate_signed L d n i dir os save = Ok key ->
  exists sh sg x h, asked L k w sh /\ l_sign L k (l_encapenc L (d_encap d)) sh = Ok sg /\ l_verify L x (l_encapenc L (d_encap d)) (sg ++ [65; 65]) (Some h) = Ok tt.
Proof.
  intros H V. apply build_inv in H. destruct H as (sh & so & do & digest & sg & W & _ & _ & E & S & _). apply validate_iff in V.
  destruct V as (_ & _ & _ & outer & ct & certs & c' & info & more & s & h & md & _ & _ & _ & _ & _ & H9 & _ & _ & _ & _ & _ & _ & _ & _ & H18 & H19 & _).
  rewrite E in H9. injection H9 as <- <-. cbn [s_sig] in H18. injection H18 as <-. exists sh, sg, c', h. split; [exact W|]. split; assumption.
Qed.
