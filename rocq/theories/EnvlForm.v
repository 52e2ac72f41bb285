(** The form of the recipients that are built (C117). *)
From Coq Require Import String.
From Verif Require Import Prelude HdrModel ProtMac EnvlModel EnvlSpec EnvlProofs EnvlBuild.
Open Scope string_scope.
Open Scope Z_scope.
Open Scope list_scope.

Lemma recipient_iff c isn ski i : recipient_id c isn ski false = Ok i <-> named c isn ski i.
Proof.
  unfold recipient_id. split.
  - destruct isn as [[x n]|]; [intros H; injection H as <-; now apply named_isn|].
    destruct c as [c|], ski as [s|]; cbn [bind].
    + intros H. injection H as <-. now apply named_ski.
    + destruct (c_ski c) as [s|] eqn:S; cbn [bind]; intros H; injection H as <-; [now apply (named_cert _ _ _ c)|now apply named_serial].
    + intros H. injection H as <-. now apply named_ski.
    + discriminate.
  - intros H. destruct H as [x n E|s E1 E2|c' s E1 E2 E3 E4|c' E1 E2 E3 E4]; subst.
    + reflexivity.
    + destruct c; reflexivity.
    + rewrite E4. reflexivity.
    + rewrite E4. reflexivity.
Qed.

Lemma transport_form L p c cek coins oaep isn r kt : build_ktri L p c cek coins oaep isn r = Ok kt ->
  p_kind p = KRsa /\ kt_version kt = 2
  /\ (exists a, kt_alg kt = Some a /\ transport_alg L oaep a)
  /\ exists i, kt_rid kt = Some i /\ match r with Some j => i = j | None => named c isn None i end.
Proof.
  unfold build_ktri. destruct (p_kind p); try discriminate. intros H. split; [reflexivity|].
  apply bind_inv in H. destruct H as (pad & _ & H). apply bind_inv in H. destruct H as (w & _ & H). apply bind_inv in H. destruct H as (i & I & H).
  injection H as <-. cbn [kt_version kt_alg kt_rid]. split; [reflexivity|]. split.
  - eexists. split; [reflexivity|]. destruct oaep; reflexivity.
  - exists i. split; [reflexivity|]. destruct r as [j|]; [congruence|now apply recipient_iff].
Qed.

Lemma agreement_iff p o x : kari_oid p o = Ok x -> agreement_oid p o x.
Proof.
  unfold kari_oid, agreement_oid. destruct (ko_oid o); [congruence|].
  assert (D : match key_of_value (ko_hash o, ko_cof o) (fun a b => String.eqb (fst a) (fst b) && Bool.eqb (snd a) (snd b)) dh_table with
              | Some x => Ok x | None => Err EValueError end = Ok x ->
              dh_scheme x (ko_hash o) (ko_cof o) /\ ~ In x ["1.3.101.110"; "1.3.101.111"; "1.2.840.113549.1.9.16.3.5"]).
  { destruct (key_of_value _ _ _) as [y|] eqn:K; [|discriminate]. intros H. injection H as <-.
    assert (I : In y (map fst dh_table)).
    { revert K. unfold key_of_value. generalize dh_table as l. intros l. induction l as [|[z [h f]] l IH]; cbn [map find fst snd]; [discriminate|].
      destruct (_ && _)%bool; [intros H; injection H as <-; left; reflexivity|right; auto]. }
    split; [now apply kari_table|]. cbn in I. intros C. cbn in C.
    destruct C as [<-|[<-|[<-|[]]]]; intuition discriminate. }
  assert (M : match key_of_value (ko_hash o) String.eqb mqv_table with Some x => Ok x | None => Err EKeyError end = Ok x -> mqv_scheme x (ko_hash o)).
  { destruct (key_of_value (ko_hash o) String.eqb mqv_table) as [y|] eqn:K; intros H; [|discriminate H]. injection H as <-. now apply mqv_table_inv. }
  destruct (p_kind p); try (intros H; injection H as <-; reflexivity); destruct (ko_mqv o); assumption.
Qed.

Lemma agreement_form L p k eph c cek ukm o isn og r ka : build_kari L p k eph c cek ukm o isn og r = Ok ka ->
  (isn <> None \/ c <> None) /\ ka_version ka = Some 3
  /\ (exists a, ka_alg ka = Some a /\ agreement_oid p o (g_oid a)
                /\ g_par a = Some (l_algenc L {| g_oid := ko_wrap o; g_par := None |}))
  /\ (ko_mqv o = false -> ka_ukm ka = Some ukm)
  /\ (forall g, og = Some g -> ka_orig ka = Some g)
  /\ (forall i n, og = None -> isn = Some (i, n) -> ka_orig ka = Some (OrigIsn i n))
  /\ forall i, r = Some i -> exists e, ka_keys ka = [{| re_rid := i; re_key := e |}].
Proof.
  unfold build_kari. intros H. apply bind_inv in H. destruct H as (x & X & H). apply bind_inv in H. destruct H as ([kek u] & K & H).
  apply bind_inv in H. destruct H as (w & _ & H). apply bind_inv in H. destruct H as ([] & G & H). apply bind_inv in H. destruct H as (g & O & H).
  apply bind_inv in H. destruct H as (i & I & H). injection H as <-. cbn [ka_version ka_alg ka_ukm ka_orig ka_keys].
  split; [destruct isn; [left; discriminate|destruct c; [right; discriminate|discriminate G]]|]. split; [reflexivity|].
  split; [eexists; split; [reflexivity|]; split; [now apply agreement_iff|reflexivity]|].
  split. { intros M. unfold kari_sender in K. rewrite M in K. apply bind_inv in K. destruct K as (? & _ & K). congruence. }
  split. { intros g' ->. congruence. }
  split. { intros i' n -> ->. cbn [originator_id] in O. congruence. }
  intros i' ->. cbn [kari_rid] in I. exists w. congruence.
Qed.

Lemma kdf_form L o a p : build_kdf L (eo_kdf o) (eo_hash o) (eo_salt o) = Ok (a, p) -> kdf_asked L o a.
Proof.
  unfold build_kdf. destruct (String.eqb (eo_kdf o) "hkdf") eqn:E1.
  - apply String.eqb_eq in E1. destruct (find_oid _ hkdf_table) as [x|] eqn:F; [|discriminate]. intros H. injection H as <- <-.
    apply find_in in F. cbn in F.
    repeat (destruct F as [F|F]; [injection F as F1 <-; symmetry in F1;
      first [now apply asked_hkdf256 | now apply asked_hkdf384 | now apply asked_hkdf512
            | apply (asked_hkdf3 _ _ (eo_hash o)); [exact E1|reflexivity|rewrite F1; cbn; tauto]]|]).
    destruct F.
  - destruct (String.eqb (substring 0 3 (eo_kdf o)) "kdf") eqn:E2.
    + apply String.eqb_eq in E2. intros H. apply bind_inv in H. destruct H as (s & S & H). injection H as <- <-.
      destruct (String.eqb (eo_kdf o) "kdf2") eqn:E3; [apply String.eqb_eq in E3; now apply asked_kdf2|].
      apply asked_kdf3; auto. now apply String.eqb_neq.
    + destruct (String.eqb (substring 0 6 (eo_kdf o)) "pbkdf2") eqn:E3; [|discriminate]. apply String.eqb_eq in E3. intros H.
      apply bind_inv in H. destruct H as (s & S & H). injection H as <- <-. now apply asked_pbkdf2.
Qed.

Lemma kem_form L p c cek coins o isn ski r km : build_kemri L p c cek coins o isn ski false r = Ok km ->
  km_version km = Some (eo_version o) /\ km_ukm km = eo_ukm o
  /\ (exists a, km_kdf km = Some a /\ kdf_asked L o a)
  /\ (exists i, km_rid km = Some i /\ match r with Some j => i = j | None => named c isn ski i end)
  /\ (forall x, eo_oid o = Some x -> km_kem km = Some x) /\ (forall t, eo_ct o = Some t -> km_ct km = Some t).
Proof.
  unfold build_kemri. intros H. apply bind_inv in H. destruct H as (i & I & H). apply bind_inv in H. destruct H as (w & _ & H).
  apply bind_inv in H. destruct H as (n & _ & H). apply bind_inv in H. destruct H as ([[ss ct] x] & K & H).
  apply bind_inv in H. destruct H as ([a pk] & A & H). apply bind_inv in H. destruct H as (kek & _ & H). apply bind_inv in H. destruct H as (e & _ & H).
  injection H as <-. cbn [km_version km_ukm km_kdf km_rid km_kem km_ct]. split; [reflexivity|]. split; [reflexivity|].
  split; [exists a; split; [reflexivity|now apply (kdf_form L o a pk)]|].
  split; [exists i; split; [reflexivity|]; destruct r; [congruence|now apply recipient_iff]|].
  assert (E : (forall y, eo_oid o = Some y -> x = Some y) /\ (forall t, eo_ct o = Some t -> ct = t)).
  { destruct (eo_ct o) as [t|], (eo_ss o) as [s|].
    { injection K as <- <- <-. split; intros; congruence. }
    all: apply bind_inv in K; destruct K as (q & _ & K); destruct (p_kind q); try discriminate K;
      apply bind_inv in K; destruct K as ([s0 c0] & _ & K); injection K as <- <- <-; split; intros ? E; try congruence; rewrite E; reflexivity. }
  destruct E as [E1 E2]. split; [exact E1|intros t T; f_equal; now apply E2].
Qed.

(** Without a key, that of the certificate is used. *)
Lemma kem_cert L c q cek coins o isn ski bad r : l_load L (c_spki c) = Ok q ->
  build_kemri L None (Some c) cek coins o isn ski bad r = build_kemri L (Some q) (Some c) cek coins o isn ski bad r.
Proof. intros H. unfold build_kemri. rewrite H. reflexivity. Qed.

Lemma exchange_form L p data k eph c cek iv ukm coins isn oaep enc v :
  build_exchange L p data k eph c cek iv ukm coins isn oaep enc = Ok v ->
  v_version v = 2
  /\ match p_kind p with
     | KRsa => exists r a, v_recips v = [Ktri r] /\ kt_alg r = Some a /\ transport_alg L oaep a
     | KEc | KX25519 | KX448 => exists r, v_recips v = [Kari r]
     | KKem x => exists r, v_recips v = [Ori "1.2.840.113549.1.9.16.13.3" (l_kemenc L r)] /\ km_kem r = Some x
     | KOther => False
     end.
Proof.
  unfold build_exchange. destruct (p_kind p) as [| | | |o|] eqn:P; intros H.
  - apply bind_inv in H. destruct H as (r & R & H). apply bind_inv in H. destruct H as (e & _ & H). injection H as <-. cbn [v_version v_recips].
    split; [reflexivity|]. apply transport_form in R. destruct R as (_ & _ & (a & A1 & A2) & _). exists r, a. auto.
  - destruct k as [k|]; [|discriminate]. apply bind_inv in H. destruct H as (? & _ & H).
    apply bind_inv in H. destruct H as (r & R & H). apply bind_inv in H. destruct H as (e & _ & H). injection H as <-. cbn [v_version v_recips].
    split; [reflexivity|]. exists r. reflexivity.
  - destruct k as [k|]; [|discriminate]. apply bind_inv in H. destruct H as (? & _ & H).
    apply bind_inv in H. destruct H as (r & R & H). apply bind_inv in H. destruct H as (e & _ & H). injection H as <-. cbn [v_version v_recips].
    split; [reflexivity|]. exists r. reflexivity.
  - destruct k as [k|]; [|discriminate]. apply bind_inv in H. destruct H as (? & _ & H).
    apply bind_inv in H. destruct H as (r & R & H). apply bind_inv in H. destruct H as (e & _ & H). injection H as <-. cbn [v_version v_recips].
    split; [reflexivity|]. exists r. reflexivity.
  - apply bind_inv in H. destruct H as (r & R & H). apply bind_inv in H. destruct H as (e & _ & H). injection H as <-. cbn [v_version v_recips].
    split; [reflexivity|]. exists r. split; [reflexivity|]. unfold build_kemri in R. cbn [eo_ct eo_ss eo_oid kem_defaults] in R.
    apply bind_inv in R. destruct R as (i & _ & R). apply bind_inv in R. destruct R as (w & _ & R).
    apply bind_inv in R. destruct R as (n & _ & R). apply bind_inv in R. destruct R as ([[ss ct] x] & K & R).
    apply bind_inv in R. destruct R as ([a pk] & _ & R). apply bind_inv in R. destruct R as (kek & _ & R). apply bind_inv in R. destruct R as (e' & _ & R).
    injection R as <-. cbn [km_kem bind] in *. rewrite P in K. apply bind_inv in K. destruct K as ([s0 c0] & _ & K). congruence.
  - discriminate.
Qed.
