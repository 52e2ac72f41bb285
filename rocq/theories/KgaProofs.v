(** Proofs about centrally generated keys. *)
From Coq Require Import String Lia.
From Verif Require Import Prelude CertChainModel BitModel BitSpec BitUsage SdModel SdSpec SdAlgs SdProofs SdBuild KgaModel KgaSpec.
From Verif Require EnvlModel EnvlSpec EnvlBuild.
From Verif Require Import ProtMac ChamProofs EnvlProofs.
Open Scope string_scope.
Open Scope Z_scope.
Open Scope list_scope.

Lemma agreement_dec x : {allows x "keyAgreement"} + {~ allows x "keyAgreement"}.
Proof.
  destruct (nth_error x 4) as [[|]|] eqn:E.
  - left. exists 4%nat. split; [reflexivity|exact E].
  - right. intros (i & H1 & H2). do 9 (destruct i as [|i]; [cbn in H1; try discriminate H1; unfold is_set in H2; congruence|]). destruct i; discriminate H1.
  - right. intros (i & H1 & H2). do 9 (destruct i as [|i]; [cbn in H1; try discriminate H1; unfold is_set in H2; congruence|]). destruct i; discriminate H1.
Qed.
Lemma agreement_iff c : validate_key_usage c "keyAgreement" (VInt 2) = Ok tt <-> exists bits, k_usage c = Some bits /\ allows bits "keyAgreement".
Proof.
  assert (L : lists PyStr.is_space "keyAgreement" ["keyAgreement"]).
  { split; [discriminate|]. exists ["keyAgreement"]. split; [reflexivity|]. constructor; [|constructor]. exists "", "". repeat split. }
  assert (K : forall n, In n ["keyAgreement"] -> In n KU_NAMES).
  { intros n [<-|[]]. do 4 right. left. reflexivity. }
  destruct (BitUsage.validate_exact c "keyAgreement" ["keyAgreement"] (VInt 2) STRICT eq_refl L K) as [H1 H2].
  unfold usage_ok in *. destruct (k_usage c) as [x|].
  - split.
    + intros H. exists x. split; [reflexivity|]. destruct (agreement_dec x) as [D|D]; [exact D|]. rewrite H2 in H; [discriminate H|].
      intros C. apply D, C. left. reflexivity.
    + intros (y & E & H). injection E as <-. apply H1. intros n [<-|[]]. exact H.
  - split; [|intros (y & E & _); discriminate E]. intros H. rewrite H2 in H; [discriminate H|]. intros [].
Qed.
Lemma use_iff Y c r m z : check_use Y c (EnvlModel.name_of r) m (z_pw z) = Ok tt <-> proper Y m z c r.
Proof.
  destruct r; cbn [EnvlModel.name_of check_use proper]; try tauto.
  - apply agreement_iff.
  - split; [discriminate|intros []].
  - destruct (z_pw z) as [p|].
    + split; [intros H; exists p; split; [reflexivity|exact H]|]. intros (p' & E & H). injection E as <-. exact H.
    + split; [discriminate|intros (p & E & _); discriminate E].
Qed.
Lemma opened_iff Y m z c v data :
  EnvlModel.open_env (y_env Y) v (receiver Y m z c) (z_type z) (z_index z) (z_size z) false = Ok data <-> opened Y m z c v data.
Proof.
  unfold opened. assert (G : forall t, t <> EnvlModel.AName EnvlModel.NPwri -> t <> EnvlModel.AKemri ->
    (EnvlModel.open_env (y_env Y) v (receiver Y m z c) t (z_index z) (z_size z) false = Ok data
     <-> exists r r0 cek, EnvlSpec.recipient v (z_size z) (z_index z) r /\ EnvlSpec.expects t r /\ EnvlSpec.recipient v (z_size z) 0 r0
           /\ EnvlSpec.yields (y_env Y) (receiver Y m z c) r0 cek /\ EnvlSpec.content_opens (y_env Y) (EnvlModel.v_content v) cek false data)).
  { intros t H1 H2. apply open_general; assumption. }
  destruct (z_type z) as [| |[]]; try (apply G; discriminate).
  - rewrite open_env_kemri. reflexivity.
  - rewrite open_env_pwri. cbn [receiver EnvlModel.i_pw EnvlModel.i_msg EnvlModel.i_salt]. split.
    + intros (r & p & s & cek & m' & H1 & H2 & H3 & H4 & H5 & H6 & H7). injection H6 as <-. exists r, p, s, cek. auto 8.
    + intros (r & p & s & cek & H1 & H2 & H3 & H4 & H5 & H6). exists r, p, s, cek, (as_env Y m). auto 10.
Qed.
Lemma issued_iff m i c : issued_cert m i = Ok c <-> issued m i c.
Proof.
  unfold issued_cert, issued. destruct (q_pairs m) as [l|]; [|split; [discriminate|intros (l & v & E & _); discriminate E]].
  split.
  - destruct (nth_error l i) as [[[[x|] v]|]|] eqn:E; try discriminate. cbn. intros [= ->]. exists l, v. split; [reflexivity|exact E].
  - intros (l' & v & E & H). injection E as <-. rewrite H. reflexivity.
Qed.
Lemma kga_iff Y m z dir os k : validate_kga Y m z dir os = Ok k <-> delivers Y m z dir os k.
Proof.
  unfold validate_kga, delivers. split.
  - intros H. bd H as [], A. apply Z.eqb_eq in A. split; [exact A|]. destruct (nth_error (q_extra m) (z_cert z)) as [c|] eqn:C; [|discriminate].
    apply bind_inv in H. destruct H as (l & D & H). destruct (q_pairs m) as [l'|] eqn:P; [|discriminate]. injection D as ->.
    destruct (nth_error l (z_index z)) as [[[fc [|v|]]|]|] eqn:N; cbn [f_key] in H; try discriminate.
    apply bind_inv in H. destruct H as (data & F & H). apply bind_inv in H. destruct H as (d & G & H). apply bind_inv in H. destruct H as (k' & I & H).
    destruct (nth_error (EnvlModel.v_recips v) (z_index z)) as [r|] eqn:R; [|discriminate].
    apply bind_inv in H. destruct H as ([] & J & H). apply bind_inv in H. destruct H as (i & K & H). apply bind_inv in H. destruct H as (q & M & H).
    bd H as [], Q. apply bytes_eqb_iff in Q. injection H as ->. subst q.
    exists c, v, data, d, r, i. split; [reflexivity|]. split; [exists l, fc; split; [exact P|exact N]|]. split; [apply opened_iff; exact F|].
    split; [destruct (y_signed Y data) as [[x [|]]|]; try discriminate; injection G as ->; reflexivity|]. split; [apply validate_iff; exact I|].
    split; [exact R|]. split; [apply use_iff; exact J|]. split; [apply issued_iff; exact K|exact M].
  - intros (A & c & v & data & d & r & i & C & (l & fc & P & N) & F & G & I & R & J & K & M). rewrite A. cbn [guard bind Z.eqb Pos.eqb]. rewrite C, P. cbn [bind]. rewrite N. cbn [f_key].
    apply opened_iff in F. unfold receiver in F. rewrite F. cbn [bind]. rewrite G. cbn [bind]. apply validate_iff in I. rewrite I. cbn [bind]. rewrite R.
    apply use_iff in J. rewrite J. cbn [bind]. apply issued_iff in K. rewrite K. cbn [bind]. rewrite M. cbn [bind].
    assert (bytes_eqb (k_pub k) (k_pub k) = true) as -> by (apply bytes_eqb_iff; reflexivity). reflexivity.
Qed.
(** As many recipients, signers and digests as keys. *)
Lemma kga_sizes Y m z dir os k : validate_kga Y m z dir os = Ok k -> exists v data d content pkg,
  sent m (z_index z) v /\ y_signed Y data = Some (d, []) /\ n_content (d_encap d) = Some content /\ l_pkgdec (y_sd Y) content = Some (pkg, [])
  /\ List.length (EnvlModel.v_recips v) = z_size z /\ List.length (d_signers d) = z_size z /\ List.length (d_digests d) = z_size z /\ List.length pkg = z_size z.
Proof.
  intros H. apply kga_iff in H. destruct H as (A & c & v & data & d & r & i & C & S & F & G & I & _).
  destruct I as (_ & I2 & I3 & outer & content & certs & c' & info & more & s & h & md & _ & I5 & (pkg & o & P1 & P2 & _) & _).
  exists v, data, d, content, pkg. split; [exact S|]. split; [exact G|]. split; [rewrite I5; reflexivity|]. split; [exact P1|]. split; [|repeat split; assumption].
  unfold opened in F. destruct (z_type z) as [| |[]];
    [destruct F as (r1 & r0 & cek & [F _] & _)|destruct F as (k0 & o0 & x & r1 & cek & _ & _ & [F _] & _)|destruct F as (r1 & r0 & cek & [F _] & _)
    |destruct F as (r1 & r0 & cek & [F _] & _)|destruct F as (r1 & r0 & cek & [F _] & _)|destruct F as (r1 & p & s1 & cek & [F _] & _)|destruct F as (r1 & r0 & cek & [F _] & _)]; exact F.
Qed.

(** ** Round trip with a password *)

Lemma pwri_recip L pw data cek salt iv kdf raw o v : EnvlModel.build_env_pwri L pw data cek salt iv kdf raw o = Ok v -> exists r, EnvlModel.v_recips v = [EnvlModel.Pwri r].
Proof.
  unfold EnvlModel.build_env_pwri. intros H. apply bind_inv in H. destruct H as (r & _ & H). unfold EnvlModel.build_env in H.
  repeat match type of H with bind _ _ = _ => apply bind_inv in H; destruct H as (? & _ & H) end. injection H as <-. exists r. reflexivity.
Qed.
Lemma password_round Y m pw z dir os d k c i v data cek salt iv kdf s :
  EnvlSpec.laws (y_env Y) -> y_signed Y data = Some (d, []) -> validate_signed (y_sd Y) d 1 0 dir os (z_save z) = Ok k ->
  EnvlModel.build_env_pwri (y_env Y) pw data cek salt iv kdf false EnvlModel.SIGNED = Ok v -> EnvlSpec.aes_key cek ->
  q_pvno m = 3 -> nth_error (q_extra m) (z_cert z) = Some c ->
  q_pairs m = Some [Some {| f_cert := Some i; f_key := EnvKey v |}] -> y_pub Y i = Ok (k_pub k) ->
  EnvlSpec.protection_salt (y_env Y) (Some (as_env Y m)) None s -> s <> salt -> EnvlModel.l_verify (y_env Y) (as_env Y m) pw = Ok tt ->
  z_pw z = Some pw -> (z_type z = EnvlModel.AName EnvlModel.NPwri) -> z_size z = 1%nat -> z_index z = O ->
  validate_kga Y m z dir os = Ok k.
Proof.
  intros W Hd Hv Hb Hk H1 H2 H3 H4 H5 H6 H7 H8 H9 H10 H11. apply kga_iff. split; [exact H1|].
  destruct (pwri_recip _ _ _ _ _ _ _ _ _ _ Hb) as [r Hr]. exists c, v, data, d, (EnvlModel.Pwri r), i. rewrite H10, H11, Hr.
  split; [exact H2|]. split; [exists [Some {| f_cert := Some i; f_key := EnvKey v |}], (Some i); split; [exact H3|reflexivity]|].
  split. { apply opened_iff. rewrite H9, H10, H11. apply (EnvlBuild.env_pwri_round _ _ _ _ _ _ _ _ _ _ _ _ _ W Hb).
    { exact H8. } split; [reflexivity|]. split; [exact Hk|]. split; [reflexivity|]. split; [exists s; split; [exact H5|exact H6]|]. exists (as_env Y m). split; [reflexivity|exact H7]. }
  split; [exact Hd|]. split; [apply validate_iff; exact Hv|]. split; [reflexivity|]. split; [exists pw; split; assumption|].
  split; [exists [Some {| f_cert := Some i; f_key := EnvKey v |}], (EnvKey v); split; [exact H3|reflexivity]|exact H4].
Qed.
