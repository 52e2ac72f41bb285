(** Proofs about loading and saving composite signature keys. *)
From Coq Require Import String Ascii NArith.
From Verif Require Import Prelude CompSigModel CompSigSpec CompSigProofs CompLoadModel CompLoadSpec.
From Verif Require PqKeyModel PqKeySpec PqKeyProofs.
Import ListNotations.
Open Scope Z_scope.

Lemma names r : In r draft -> exists n, name_of_oid (r_arc r) = Some n /\ split_name n = Ok (r_dsa r, lower (alg_name (r_trad r))).
Proof.
  intro H. cbv [draft] in H. cbn [In] in H. repeat (destruct H as [<-|H]; [eexists; split; reflexivity|]). destruct H.
Qed.
Lemma name_row o n : name_of_oid o = Some n -> exists r, In r draft /\ r_arc r = o.
Proof.
  unfold name_of_oid. rewrite table_names. destruct (find _ _) as [[m a]|] eqn:F; [|discriminate]. intros _.
  apply find_some in F. destruct F as [I A]. cbn [snd] in A. apply Z.eqb_eq in A. apply in_map_iff in I. destruct I as (r & Q & I).
  exists r. split; [exact I|]. congruence.
Qed.

Section Env.
Variable E : env.
Variable L : lib.

(** ** Public keys *)
Definition read_pub (t : trad_alg) (d : bytes) : result tpub :=
  match t with
  | TEd448 => let! b := of_opt (l_ed448_pub L d) EInvalidKeyData in Ok (Ed448Pub b)
  | TEd25519 => let! b := of_opt (l_ed25519_pub L d) EInvalidKeyData in Ok (Ed25519Pub b)
  | TEcdsa c => let! b := of_opt (l_ec_point L c d) EInvalidKeyData in Ok (EcPub c b)
  | TRsa _ _ =>
      let! r := of_opt (l_rsa_pub_rest L d) EBadAsn1Data in
      let! _ := guard (match r with [] => true | _ => false end) EInvalidKeyData in
      of_opt (l_der_pub L d) EInvalidKeyData
  end.
Definition rsab (t : trad_alg) : bool := match t with TRsa _ _ => true | _ => false end.
Lemma load_spki_row r d : In r draft -> load_spki L (r_arc r) d =
  (let! (pk, rest) := match PqKeyModel.factory_from_public_bytes (PqKeyModel.Dsa (r_dsa r)) d true with Err EValueError => Err EInvalidKeyData | x => x end in
   let! t := read_pub (r_trad r) rest in
   let k := {| pk_pq := r_dsa r; pk_pq_bytes := PqKeyModel.p_bytes pk; pk_trad := t |} in
   let! _ := pub_oid k (rsab (r_trad r)) in Ok k).
Proof.
  intro H. destruct (names r H) as (n & N & S). unfold load_spki. rewrite N. cbn [of_opt bind]. unfold load_public. rewrite S. cbn [bind].
  destruct (match PqKeyModel.factory_from_public_bytes _ _ _ with Err EValueError => _ | x => x end) as [[pk rest]|e]; cbn [bind]; [|reflexivity].
  clear N S n. cbv [draft] in H. cbn [In] in H. repeat (destruct H as [<-|H]; [reflexivity|]). destruct H.
Qed.
Lemma factory_ok a d : exists r, PqKeyModel.factory_from_public_bytes a d true = r /\
  ((exists pk, r = Ok (pk, skipn (PqKeySpec.std_pub a) d) /\ PqKeyModel.p_bytes pk = firstn (PqKeySpec.std_pub a) d /\ List.length (PqKeyModel.p_bytes pk) = PqKeySpec.std_pub a)
   \/ exists e, r = Err e /\ (List.length d < PqKeySpec.std_pub a)%nat).
Proof.
  eexists. split; [reflexivity|]. unfold PqKeyModel.factory_from_public_bytes, PqKeyModel.from_public_bytes. rewrite PqKeyProofs.pub_std.
  destruct (Nat.le_gt_cases (PqKeySpec.std_pub a) (List.length d)) as [H|H].
  - left. assert (X : List.length (firstn (PqKeySpec.std_pub a) d) = PqKeySpec.std_pub a) by (rewrite firstn_length; lia).
    rewrite X, Nat.eqb_refl. cbn [guard bind orb]. eexists. split; [reflexivity|]. cbn [PqKeyModel.p_bytes]. auto.
  - right. assert (X : List.length (firstn (PqKeySpec.std_pub a) d) = List.length d) by (rewrite firstn_length; lia). rewrite X.
    replace (List.length d =? PqKeySpec.std_pub a)%nat with false by (symmetry; apply Nat.eqb_neq; lia). cbn [guard bind]. eexists. split; [reflexivity|exact H].
Qed.

Definition row_pss (t : trad_alg) : bool := match t with TRsa _ Pss => true | _ => false end.

(** Where a PKCS #1 v1.5 combination exists, so does the PSS one. *)
Lemma pss_row k pss r : pub_row k pss r -> exists r', pub_row k (rsab (r_trad r)) r'.
Proof.
  intros (I & D & A). destruct (r_trad r) as [n p|c| |] eqn:T; cbn [rsab].
  - destruct (pk_trad k) as [bits b| | | |] eqn:K; cbn [pub_alg] in A; try discriminate A. injection A as An Ap. subst n p.
    unfold pub_row. rewrite K. cbn [pub_alg pad_of]. destruct pss; [exists r; split; [exact I|]; split; [exact D|]; rewrite T; reflexivity|].
    clear K. cbv [draft] in I. cbn [In] in I.
    repeat (destruct I as [<-|I]; [cbn [r_trad r_dsa pad_of] in T, D; first [discriminate T|
      injection T as <-; rewrite <- D; match goal with |- exists r', _ /\ _ = ?d /\ Some (TRsa ?n Pss) = _ =>
        let w := eval vm_compute in (find (fun r => dsa_eqb (r_dsa r) d && alg_eqb (r_trad r) (TRsa n Pss)) draft) in
        match w with Some ?r => exists r; split; [vm_compute; tauto|split; reflexivity] end end]|]). destruct I.
  - exists r. split; [exact I|]. split; [exact D|]. destruct (pk_trad k); try discriminate A; rewrite T; exact A.
  - exists r. split; [exact I|]. split; [exact D|]. destruct (pk_trad k); try discriminate A; rewrite T; exact A.
  - exists r. split; [exact I|]. split; [exact D|]. destruct (pk_trad k); try discriminate A; rewrite T; exact A.
Qed.

Lemma read_pub_exported k pss r : pub_reads L (pk_trad k) -> pub_alg (pk_trad k) pss = Some (r_trad r) -> read_pub (r_trad r) (l_enc_pub L (pk_trad k)) = Ok (pk_trad k).
Proof.
  intros HL A. destruct (pk_trad k); cbn [pub_alg] in A; try discriminate A; injection A as <-; cbn [read_pub]; cbn [pub_reads] in HL; cbv zeta in HL.
  - destruct HL as [-> ->]. reflexivity.
  - rewrite HL. reflexivity.
  - rewrite HL. reflexivity.
  - rewrite HL. reflexivity.
Qed.
Lemma load_exported r d k t : In r draft -> PqKeyModel.factory_from_public_bytes (PqKeyModel.Dsa (r_dsa r)) d true = Ok (k, t) ->
  load_spki L (r_arc r) d = (let! q := read_pub (r_trad r) t in
   let k := {| pk_pq := r_dsa r; pk_pq_bytes := PqKeyModel.p_bytes k; pk_trad := q |} in
   let! _ := pub_oid k (rsab (r_trad r)) in Ok k).
Proof. intros I F. rewrite load_spki_row by exact I. rewrite F. reflexivity. Qed.
Lemma factory_app a b c : List.length b = PqKeySpec.std_pub a ->
  PqKeyModel.factory_from_public_bytes a (b ++ c) true = Ok ({| PqKeyModel.p_alg := a; PqKeyModel.p_bytes := b |}, c).
Proof.
  intro Hb. unfold PqKeyModel.factory_from_public_bytes, PqKeyModel.from_public_bytes. rewrite PqKeyProofs.pub_std.
  rewrite (PqKeyProofs.firstn_exact _ _ _ Hb), (PqKeyProofs.skipn_exact _ _ _ Hb), Hb, Nat.eqb_refl. reflexivity.
Qed.

(** An exported key is read back, under the identifier of its own combination, and an RSA key under that of any RSA combination
    with the same ML-DSA parameter set. *)
Theorem public_roundtrip k pss r0 r : pub_reads L (pk_trad k) -> wf_pub k -> pub_row k pss r0 -> In r draft ->
  r = r0 \/ (is_rsa (r_trad r0) /\ is_rsa (r_trad r) /\ r_dsa r = r_dsa r0) ->
  load_spki L (r_arc r) (export_public L k) = Ok k.
Proof.
  intros HL W R I Q. destruct R as (I0 & D0 & A0) eqn:ER. clear ER.
  assert (Dr : r_dsa r = pk_pq k) by (destruct Q as [->|(_ & _ & ->)]; exact D0).
  assert (Rs : rsab (r_trad r) = rsab (r_trad r0)).
  { destruct Q as [->|(X & Y & _)]; [reflexivity|]. destruct (r_trad r), (r_trad r0); try contradiction; reflexivity. }
  assert (Rd : read_pub (r_trad r) (l_enc_pub L (pk_trad k)) = Ok (pk_trad k)).
  { destruct Q as [->|(X & Y & _)]; [exact (read_pub_exported k pss r0 HL A0)|].
    pose proof (read_pub_exported k pss r0 HL A0) as Z. destruct (r_trad r), (r_trad r0); try contradiction. exact Z. }
  unfold export_public. rewrite (load_exported r _ _ _ I (factory_app (PqKeyModel.Dsa (r_dsa r)) _ _ ltac:(rewrite Dr; exact W))).
  rewrite Rd. cbn [bind PqKeyModel.p_bytes]. cbv zeta.
  assert (Ek : {| pk_pq := r_dsa r; pk_pq_bytes := pk_pq_bytes k; pk_trad := pk_trad k |} = k) by (rewrite Dr; destruct k; reflexivity).
  rewrite Ek, Rs. destruct (pss_row k pss r0 (conj I0 (conj D0 A0))) as (r' & R').
  rewrite (proj2 (pub_oid_ok k (rsab (r_trad r0)) (r_arc r')) (ex_intro _ r' (conj R' eq_refl))). reflexivity.
Qed.

(** What is read under an identifier. *)
Theorem public_loaded o d k : rsa_class L -> load_spki L o d = Ok k -> exists r, In r draft /\ r_arc r = o /\ wf_pub k /\
  (exists rest, d = pk_pq_bytes k ++ rest) /\ r_dsa r = pk_pq k /\
  ((~ is_rsa (r_trad r) /\ pub_row k false r) \/
   (is_rsa (r_trad r) /\ exists r', pub_row k true r' /\ is_rsa (r_trad r'))).
Proof.
  intros HL H. assert (X : exists r, In r draft /\ r_arc r = o).
  { unfold load_spki in H. destruct (name_of_oid o) as [n|] eqn:N; [|discriminate]. exact (name_row o n N). }
  destruct X as (r & I & <-). exists r. split; [exact I|]. split; [reflexivity|]. rewrite load_spki_row in H by exact I.
  destruct (factory_ok (PqKeyModel.Dsa (r_dsa r)) d) as (x & F & C). rewrite F in H. destruct C as [(pk & -> & B & W)|(e & -> & _)]; [|destruct e; discriminate H].
  cbn [bind] in H. destruct (read_pub (r_trad r) _) as [t|] eqn:Rd; [|discriminate]. cbn [bind] in H. cbv zeta in H.
  destruct (pub_oid _ _) as [o|] eqn:O; [|discriminate]. cbn [bind] in H. injection H as <-. cbn [pk_pq pk_pq_bytes].
  split; [exact W|]. split; [exists (skipn (PqKeySpec.std_pub (PqKeyModel.Dsa (r_dsa r))) d); rewrite B; symmetry; apply firstn_skipn|]. split; [reflexivity|].
  apply pub_oid_ok in O. destruct O as (r' & R' & _). pose proof R' as (I' & D' & A'). cbn [pk_pq pk_trad] in D', A'.
  destruct (r_trad r) as [n p|c| |] eqn:T; cbn [rsab is_rsa] in *.
  - right. split; [exact Logic.I|]. exists r'. split; [exact R'|]. cbn [read_pub] in Rd. destruct (l_rsa_pub_rest L _) as [[|y l]|] eqn:Q; try discriminate. cbn [of_opt bind guard] in Rd.
    destruct (l_der_pub L _) as [t'|] eqn:Q'; [|discriminate]. cbn [of_opt] in Rd. injection Rd as ->.
    destruct (HL _ _ Q Q') as (n' & b & ->). cbn [pub_alg] in A'. injection A' as A'. rewrite <- A'. exact Logic.I.
  - left. split; [tauto|]. cbn [read_pub] in Rd. destruct (l_ec_point L c _) as [b|]; [|discriminate]. injection Rd as <-.
    split; [exact I|]. split; [reflexivity|]. rewrite T. reflexivity.
  - left. split; [tauto|]. cbn [read_pub] in Rd. destruct (l_ed25519_pub L _) as [b|]; [|discriminate]. injection Rd as <-.
    split; [exact I|]. split; [reflexivity|]. rewrite T. reflexivity.
  - left. split; [tauto|]. cbn [read_pub] in Rd. destruct (l_ed448_pub L _) as [b|]; [|discriminate]. injection Rd as <-.
    split; [exact I|]. split; [reflexivity|]. rewrite T. reflexivity.
Qed.

(** ** Private keys *)
Definition read_priv (t : trad_alg) (d : bytes) : result tpriv :=
  match t with
  | TEd448 => let! b := of_opt (l_ed448_priv L d) EInvalidKeyData in Ok (Ed448Priv b)
  | TEd25519 => let! b := of_opt (l_ed25519_priv L d) EInvalidKeyData in Ok (Ed25519Priv b)
  | TEcdsa c => load_ec_priv L (lower c) d
  | TRsa n _ =>
      let! r := of_opt (l_rsa_priv_rest L d) EInvalidKeyData in
      let! _ := guard (match r with [] => true | _ => false end) EInvalidKeyData in
      let! t := of_opt (l_der_priv L d) EInvalidKeyData in
      match t with
      | RsaPriv bits _ => let! _ := guard (N.eqb n bits) EInvalidKeyData in Ok t
      | _ => Err EInvalidKeyData
      end
  end.
Lemma load_bytes_row r n d : In r draft -> name_of_oid (r_arc r) = Some n -> load_private_bytes E L n d =
  (let! k := PqKeyModel.from_private_bytes (c_pq E) (PqKeyModel.Dsa (r_dsa r)) (firstn 32 d) in
   let! t := read_priv (r_trad r) (skipn 32 d) in
   let key := {| sk_pq := r_dsa r; sk_pq_key := k; sk_trad := t |} in
   let! _ := priv_oid key (row_pss (r_trad r)) in Ok key).
Proof.
  intros H N. destruct (names r H) as (n' & N' & S). assert (n' = n) by congruence. subst n'. unfold load_private_bytes. rewrite S. cbn [bind].
  destruct (PqKeyModel.from_private_bytes _ _ _) as [k|e]; cbn [bind]; [|reflexivity].
  clear N N' S n. generalize (skipn 32 d) as q. intro q. clear d. cbv [draft] in H. cbn [In] in H. repeat (destruct H as [<-|H]; [reflexivity|]). destruct H.
Qed.
Lemma lower_curve r c c' : In r draft -> r_trad r = TEcdsa c -> forall b, priv_oid {| sk_pq := r_dsa r; sk_pq_key := b; sk_trad := EcPriv c' [] |} false <> Err EInvalidKeyCombination ->
  lower c' = lower c -> c' = c.
Proof.
  intros I T b O Lc.
  destruct (priv_oid _ false) as [o|e] eqn:P.
  - apply priv_oid_ok in P. destruct P as (r' & (I' & D' & A') & _). cbn [sk_pq sk_trad nearest priv_alg] in D', A'. injection A' as A'.
    assert (X : forallb (fun r => forallb (fun r' => match r_trad r, r_trad r' with TEcdsa c, TEcdsa c' => implb (String.eqb (lower c') (lower c)) (String.eqb c' c) | _, _ => true end) draft) draft = true) by (vm_compute; reflexivity).
    rewrite forallb_forall in X. specialize (X r I). rewrite forallb_forall in X. specialize (X r' I'). rewrite T, <- A' in X. rewrite Lc, String.eqb_refl in X. cbn [implb] in X.
    apply String.eqb_eq. exact X.
  - exfalso. apply O. unfold priv_oid in P. cbn [sk_pq sk_trad priv_trad_name bind] in P. unfold oid_by_name in P. destruct (lookup_name _ _); [discriminate|]. congruence.
Qed.
Lemma ec_oid_any a k k' c b b' p p' : priv_oid {| sk_pq := a; sk_pq_key := k; sk_trad := EcPriv c b |} p = priv_oid {| sk_pq := a; sk_pq_key := k'; sk_trad := EcPriv c b' |} p'.
Proof. reflexivity. Qed.

Theorem private_loaded o v d pub k : load_one_asym E L o v d pub = Ok k -> exists r pss, r_arc r = o /\ priv_row k pss r /\
  PqKeyModel.from_private_bytes (c_pq E) (PqKeyModel.Dsa (sk_pq k)) (firstn 32 d) = Ok (sk_pq_key k) /\
  trad_read L (sk_trad k) (skipn 32 d) /\ rsa_size_ok (sk_trad k) /\
  match pub with None => True | Some b => v = 1 /\ load_spki L o b = Ok (public_key E k) end.
Proof.
  intro H. unfold load_one_asym in H. destruct ((v =? 0) || (v =? 1)) eqn:V; [|discriminate]. cbn [guard bind] in H.
  destruct (negb ((v =? 0) && match pub with Some _ => true | None => false end)) eqn:V'; [|discriminate]. cbn [guard bind] in H.
  destruct (name_of_oid o) as [n|] eqn:N; [|discriminate]. cbn [of_opt bind] in H. destruct (name_row o n N) as (r & I & <-). exists r, (row_pss (r_trad r)).
  split; [reflexivity|]. unfold load_private in H. rewrite (load_bytes_row r n d I N) in H.
  destruct (PqKeyModel.from_private_bytes _ _ _) as [k0|] eqn:F; [|discriminate]. cbn [bind] in H.
  destruct (read_priv (r_trad r) _) as [t|] eqn:Rd; [|discriminate]. cbn [bind] in H. cbv zeta in H.
  destruct (priv_oid _ _) as [o|] eqn:O; [|discriminate]. cbn [bind] in H.
  assert (X : priv_row {| sk_pq := r_dsa r; sk_pq_key := k0; sk_trad := t |} (row_pss (r_trad r)) r /\ trad_read L t (skipn 32 d) /\ rsa_size_ok t).
  { unfold priv_row. cbn [sk_pq sk_trad]. destruct (r_trad r) as [m p|c| |] eqn:T; cbn [read_priv] in Rd.
    - destruct (l_rsa_priv_rest L _) as [[|y l]|] eqn:Q; try discriminate. cbn [of_opt bind guard] in Rd.
      destruct (l_der_priv L _) as [t'|] eqn:Q'; [|discriminate]. cbn [of_opt bind] in Rd. destruct t' as [bits b| | | |]; try discriminate.
      destruct (N.eqb_spec m bits) as [<-|]; [|discriminate]. cbn [guard bind] in Rd. injection Rd as <-. split; [split; [exact I|]; split; [reflexivity|]|].
      + cbn [priv_alg row_pss]. destruct p; reflexivity.
      + split; [split; assumption|]. cbn [rsa_size_ok]. clear - I T. cbv [draft] in I. cbn [In] in I.
        repeat (destruct I as [<-|I]; [cbn [r_trad] in T; first [discriminate T|injection T as <- _; cbn [In]; tauto]|]). destruct I.
    - unfold load_ec_priv in Rd. destruct (curve_instance _) as [ci|]; [|discriminate]. cbn [of_opt bind] in Rd. destruct (l_ec_priv_rest L _) as [[|y l]|] eqn:Q; try discriminate. cbn [of_opt bind guard] in Rd.
      destruct (l_der_priv L _) as [t'|] eqn:Q'; [|discriminate]. cbn [of_opt bind] in Rd. destruct t' as [|c' b| | |]; try discriminate.
      destruct (String.eqb_spec (lower c') (lower c)) as [Lc|]; [|discriminate]. cbn [guard bind] in Rd. injection Rd as <-.
      assert (c' = c).
      { apply (lower_curve r c c' I T k0); [|exact Lc]. cbn [row_pss] in O. rewrite (ec_oid_any _ k0 k0 c' [] b false false), O. discriminate. }
      subst c'. split; [split; [exact I|]; split; reflexivity|]. split; [split; assumption|exact Logic.I].
    - destruct (l_ed25519_priv L _) as [b|] eqn:Q; [|discriminate]. injection Rd as <-. split; [split; [exact I|]; split; reflexivity|]. split; [exact Q|exact Logic.I].
    - destruct (l_ed448_priv L _) as [b|] eqn:Q; [|discriminate]. injection Rd as <-. split; [split; [exact I|]; split; reflexivity|]. split; [exact Q|exact Logic.I]. }
  destruct X as (X1 & X2 & X3).
  destruct pub as [b|].
  - destruct (load_public L n b) as [p|] eqn:P; [|discriminate]. cbn [bind] in H. destruct (pub_eq _ p) as [same|] eqn:Q; [|discriminate]. cbn [bind] in H.
    destruct same; [|discriminate]. cbn [guard bind] in H. injection H as <-. split; [exact X1|]. split; [exact F|]. split; [exact X2|]. split; [exact X3|].
    split.
    + destruct (Z.eqb_spec v 0); [discriminate|]. apply Z.eqb_eq. exact V.
    + unfold load_spki. rewrite N. cbn [of_opt bind]. rewrite P. f_equal.
      assert (Be : forall x y, bytes_eqb x y = true -> x = y).
      { induction x as [|u x IH]; intros [|w y] B; cbn in B; try discriminate; [reflexivity|]. apply andb_prop in B. destruct B as [B1 B2]. apply Z.eqb_eq in B1. f_equal; auto. }
      unfold pub_eq in Q. set (q := public_key E _) in *. destruct q as [qa qb qt], p as [pa pb pt]. cbn [pk_pq pk_pq_bytes pk_trad] in *.
      destruct (pub_trad_name qt false) as [nm|]; [|discriminate]. cbn [bind] in Q. destruct (pub_trad_name pt false) as [nm'|]; [|discriminate]. cbn [bind] in Q.
      destruct (String.eqb_spec (comp_name qa nm) (comp_name pa nm')) as [Cn|]; [|discriminate]. cbn [negb] in Q. apply comp_name_inj in Cn. destruct Cn as [-> _].
      injection Q as Q. apply andb_prop in Q. destruct Q as [Q1 Q2]. apply Be in Q1. subst pb. f_equal.
      destruct qt, pt; cbn [tpub_eqb] in Q2; try discriminate Q2;
        first [apply andb_prop in Q2; destruct Q2 as [U W]; apply Be in W; subst; first [apply N.eqb_eq in U|apply String.eqb_eq in U]; subst; reflexivity|apply Be in Q2; subst; reflexivity].
  - injection H as <-. split; [exact X1|]. split; [exact F|]. split; [exact X2|]. split; [exact X3|exact Logic.I].
Qed.

(** Saving with the seed, then loading, gives back the key. *)
Lemma curve_lower r c : In r draft -> r_trad r = TEcdsa c -> exists ci, curve_instance (lower c) = Some ci.
Proof.
  intros I T. cbv [draft] in I. cbn [In] in I.
  repeat (destruct I as [<-|I]; [cbn [r_trad] in T; first [discriminate T|injection T as <-; eexists; reflexivity]|]). destruct I.
Qed.
Lemma priv_row'_of k pss r : rsa_size_ok (sk_trad k) -> priv_row k pss r -> priv_row' k pss r.
Proof. intros Z R. unfold priv_row'. rewrite (nearest_exact _ Z). exact R. Qed.
Lemma row_rsa_size k pss r : priv_row k pss r -> rsa_size_ok (sk_trad k).
Proof.
  intros (I & D & A). destruct (sk_trad k) as [bits b| | | |]; try exact Logic.I. cbn [priv_alg] in A. injection A as A. cbn [rsa_size_ok].
  cbv [draft] in I. cbn [In] in I. repeat (destruct I as [<-|I]; [cbn [r_trad] in A; first [discriminate A|injection A as -> _; cbn [In]; tauto]|]). destruct I.
Qed.
Lemma trad_self t : pub_trad_name t false <> Err EValueError -> forall n, pub_trad_name t false = Ok n -> tpub_eqb t t = true.
Proof.
  assert (Be : forall x, bytes_eqb x x = true) by (induction x as [|u x IH]; cbn; [reflexivity|rewrite Z.eqb_refl; exact IH]).
  intros _ n H. destruct t; cbn; try discriminate H; rewrite ?Be, ?N.eqb_refl, ?String.eqb_refl; reflexivity.
Qed.
Theorem private_roundtrip k seed r : pub_reads L (trad_public E (sk_trad k)) -> priv_reads L (sk_trad k) -> PqKeySpec.seeded (c_pq E) (PqKeyModel.Dsa (sk_pq k)) seed (sk_pq_key k) -> PqKeySpec.good_env (c_pq E) ->
  priv_row k true r ->
  exists d pub, save_one_asym E L k PqKeyModel.SEED = Ok (r_arc r, d, pub) /\ d = seed ++ l_enc_priv L (sk_trad k) /\
  load_one_asym E L (r_arc r) 1 d (Some pub) = Ok k /\ load_one_asym E L (r_arc r) 0 d None = Ok k /\ load_one_asym E L (r_arc r) 1 d None = Ok k.
Proof.
  intros HP HL HS HE R. pose proof R as (I & D & A). pose proof (row_rsa_size _ _ _ R) as RS. pose proof HS as [Ls FS].
  destruct (PqKeyProofs.inv_seed (c_pq E) HE (PqKeyModel.Dsa (sk_pq k)) seed (sk_pq_key k) FS) as [Inv Sd].
  assert (O : priv_oid k true = Ok (r_arc r)) by (apply priv_oid_ok; exists r; split; [exact (priv_row'_of _ _ _ RS R)|reflexivity]).
  assert (PN : PqKeyModel.private_numbers (sk_pq_key k) = Ok seed) by (unfold PqKeyModel.private_numbers; rewrite Sd; reflexivity).
  assert (SV : exists x, PqKeyModel.save_private (sk_pq_key k) PqKeyModel.SEED = Ok x).
  { destruct Inv as (Al & _). unfold PqKeyModel.save_private. rewrite Al, PN. cbn [bind].
    destruct (PqKeyProofs.enc_dec (PqKeyModel.Dsa (sk_pq k)) (PqKeyModel.CSeed seed)) as (x & X & _); [|exists x; exact X].
    exact Ls. }
  destruct SV as (x & SV).
  assert (Ex : export_private L k PqKeyModel.SEED = Ok (seed ++ l_enc_priv L (sk_trad k))).
  { unfold export_private. rewrite SV. cbn [bind]. rewrite PN. reflexivity. }
  exists (seed ++ l_enc_priv L (sk_trad k)), (export_public L (public_key E k)).
  split; [unfold save_one_asym; rewrite O; cbn [bind]; rewrite Ex; reflexivity|]. split; [reflexivity|].
  destruct (names r I) as (n & N & _).
  assert (L32 : List.length seed = 32%nat) by (rewrite Ls; destruct (sk_pq k); reflexivity).
  assert (LB : load_private_bytes E L n (seed ++ l_enc_priv L (sk_trad k)) = Ok k).
  { rewrite (load_bytes_row r n _ I N), (PqKeyProofs.firstn_exact _ _ _ L32), (PqKeyProofs.skipn_exact _ _ _ L32). rewrite D.
    rewrite PqKeyProofs.load_seed by exact Ls. rewrite FS. cbn [bind].
    assert (Rd : read_priv (r_trad r) (l_enc_priv L (sk_trad k)) = Ok (sk_trad k)).
    { destruct (sk_trad k) as [bits b|c b|b|b|]; cbn [priv_alg] in A; try discriminate A; injection A as A; rewrite <- A; cbn [read_priv]; cbn [priv_reads] in HL; cbv zeta in HL.
      - destruct HL as [-> ->]. cbn [of_opt bind guard]. rewrite N.eqb_refl. reflexivity.
      - unfold load_ec_priv. destruct (curve_lower r c I (eq_sym A)) as (ci & ->). cbn [of_opt bind]. destruct HL as [-> ->]. cbn [of_opt bind guard]. rewrite String.eqb_refl. reflexivity.
      - rewrite HL. reflexivity.
      - rewrite HL. reflexivity. }
    rewrite Rd. cbn [bind]. cbv zeta.
    assert (Ek : {| sk_pq := sk_pq k; sk_pq_key := sk_pq_key k; sk_trad := sk_trad k |} = k) by (destruct k; reflexivity). rewrite Ek.
    assert (O' : priv_oid k (row_pss (r_trad r)) = Ok (r_arc r)).
    { apply priv_oid_ok. exists r. split; [|reflexivity]. apply (priv_row'_of _ _ _ RS). split; [exact I|]. split; [exact D|].
      destruct (sk_trad k); cbn [priv_alg] in A |- *; try discriminate A; injection A as <-; reflexivity. }
    rewrite O'. reflexivity. }
  assert (W : wf_pub (public_key E k)).
  { unfold wf_pub. cbn [public_key pk_pq pk_pq_bytes]. rewrite <- PqKeyProofs.pub_std. destruct Inv as (_ & _ & X & _). exact X. }
  assert (PR : pub_row (public_key E k) true r) by (split; [exact I|]; split; [exact D|]; cbn [public_key pk_trad]; rewrite public_alg; exact A).
  assert (PL : load_public L n (export_public L (public_key E k)) = Ok (public_key E k)).
  { pose proof (public_roundtrip (public_key E k) true r r HP W PR I (or_introl eq_refl)) as Q. unfold load_spki in Q. rewrite N in Q. exact Q. }
  assert (PE : pub_eq (public_key E k) (public_key E k) = Ok true).
  { unfold pub_eq. destruct (pub_trad_name (pk_trad (public_key E k)) false) as [nm|e] eqn:Nm.
    - cbn [bind]. rewrite String.eqb_refl. cbn [negb]. rewrite (trad_self (pk_trad (public_key E k)) ltac:(rewrite Nm; discriminate) nm Nm).
      assert (Be : forall x, bytes_eqb x x = true) by (induction x0 as [|u y IH]; cbn; [reflexivity|rewrite Z.eqb_refl; exact IH]). rewrite Be. reflexivity.
    - exfalso. cbn [public_key pk_trad] in Nm. destruct (sk_trad k); cbn [priv_alg] in A; try discriminate A; discriminate Nm. }
  unfold load_one_asym, load_private. rewrite N. cbn [Z.eqb Pos.eqb orb andb negb guard bind of_opt]. rewrite LB. cbn [bind]. rewrite PL. cbn [bind]. rewrite PE. auto.
Qed.
End Env.
