(** Proofs about consistent protection (C95, C96). *)
From Coq Require Import String Ascii Lia.
From Verif Require Import Prelude PreludeFacts PyStr CompLoadModel HdrModel ProtTab ProtModel ProtSpec ProtMac ProtMacMsg ProtKind.
From Verif Require Import ProtMatchModel ProtMatchSpec.
Open Scope string_scope.
Open Scope Z_scope.
Local Notation length := List.length.

Lemma compare_alg_exact : forall L a1 a2 n, compare_alg_id L a1 a2 n = true <-> same_alg L n a1 a2.
Proof.
  intros L a1 a2 [|]; unfold compare_alg_id, same_alg.
  - apply bytes_eqb_eq.
  - rewrite andb_true_iff, String.eqb_eq. destruct (a_params a2); cbn [is_absent]; intuition congruence.
Qed.
Lemma salts_fit_exact : forall s1 s2 b, salts_fit s1 s2 b = true <-> salt_rule b s1 s2.
Proof.
  intros s1 s2 b. unfold salts_fit, salt_rule. destruct (bytes_eqb s1 s2) eqn:E.
  - apply bytes_eqb_eq in E. destruct b; cbn; intuition congruence.
  - assert (N : s1 <> s2) by (intros ->; rewrite bytes_eqb_refl in E; discriminate E). destruct b; cbn; intuition congruence.
Qed.
Lemma as_octets_exact : forall p b, as_octets p = Ok b <-> octets p b.
Proof.
  intros p b. unfold as_octets, octets. split.
  - destruct p; intro H; try discriminate H; inversion H; subst; auto.
  - intros [->|[->|(-> & ->)]]; reflexivity.
Qed.
Lemma encode_exact : forall L p d, encode_params L p = Ok d <-> der_of L p d.
Proof. intros L p d. unfold encode_params, der_of, wire. destruct p; split; intro H; try discriminate H; congruence. Qed.
Lemma dec_lax_exact : forall A (dec : bytes -> option (A * bytes)) p x, dec_lax dec p = Some x <-> decodes dec p x.
Proof.
  intros A dec p x. unfold dec_lax, load, decodes. split.
  - destruct p; try discriminate; (destruct (dec b) as [[y [|z r]]|] eqn:E; try discriminate); intro H; inversion H; subst; eauto 6.
  - intros (b & r & [->| ->] & D); rewrite D; destruct r; reflexivity.
Qed.

Lemma pbkdf2_exact : forall L s1 i1 n1 f1 s2 i2 n2 f2 an ss,
  compare_pbkdf2_parameters L (s1, i1, n1, f1) (s2, i2, n2, f2) an ss = Ok true <->
  salts_agree L ss an s1 s2 /\ i1 = i2 /\ n1 = n2 /\ same_alg L an f1 f2.
Proof.
  intros L s1 i1 n1 f1 s2 i2 n2 f2 an ss. cbn [compare_pbkdf2_parameters].
  assert (S : match s1, s2 with
              | SaltSpec x, SaltSpec y => salts_fit x y ss
              | SaltOther x, SaltOther y => compare_alg_id L x y an
              | _, _ => false
              end = true <-> salts_agree L ss an s1 s2).
  { destruct s1, s2; (split; [intro H|intro H; inversion H; subst]); try discriminate H.
    - constructor. now apply salts_fit_exact.
    - now apply salts_fit_exact.
    - constructor. now apply compare_alg_exact.
    - now apply compare_alg_exact. }
  set (b := match s1, s2 with SaltSpec x, SaltSpec y => _ | SaltOther x, SaltOther y => _ | _, _ => false end) in *.
  destruct (b && (i1 =? i2)) eqn:E; cbn [negb].
  - apply andb_prop in E as (E1 & E2). apply Z.eqb_eq in E2. split.
    + intro H. apply bind_inv in H as (l & Hl & H).
      assert (HH : l && compare_alg_id L f1 f2 an = true) by congruence. apply andb_prop in HH as (Hx & Hf). subst l.
      repeat split; try apply S; auto; [|now apply compare_alg_exact].
      destruct n1, n2; try discriminate Hl; [|reflexivity]. f_equal. apply Z.eqb_eq. congruence.
    + intros (_ & _ & -> & F). destruct n2 as [x|]; cbn [bind]; rewrite ?Z.eqb_refl; cbn [andb];
        rewrite (proj2 (compare_alg_exact L f1 f2 an) F); reflexivity.
  - split; [discriminate|]. intros (A & -> & _). apply S in A. rewrite A, Z.eqb_refl in E. discriminate E.
Qed.

Lemma pbmac1_cmp : forall L d b an ss, compare_pbmac1_parameters L d b an ss = Ok true <->
  exists k1 m1 r1 k2 m2 r2 s1 s2 i n f1 f2, l_dec_pbmac1 L d = Some ((k1, m1), r1) /\ l_dec_pbmac1 L b = Some ((k2, m2), r2) /\
    decodes (l_dec_pbkdf2 L) (a_params k1) (s1, i, n, f1) /\ decodes (l_dec_pbkdf2 L) (a_params k2) (s2, i, n, f2) /\
    salts_agree L ss an s1 s2 /\ same_alg L an f1 f2 /\ same_alg L an m1 m2.
Proof.
  intros L d b an ss. unfold compare_pbmac1_parameters. split.
  - destruct (l_dec_pbmac1 L d) as [[[k1 m1] r1]|] eqn:D1; [|discriminate].
    destruct (l_dec_pbmac1 L b) as [[[k2 m2] r2]|] eqn:D2; [|discriminate].
    destruct (dec_lax (l_dec_pbkdf2 L) (a_params k1)) as [[[[s1 i1] n1] f1]|] eqn:Q1; [|discriminate].
    destruct (dec_lax (l_dec_pbkdf2 L) (a_params k2)) as [[[[s2 i2] n2] f2]|] eqn:Q2; [|discriminate].
    intro H. apply bind_inv in H as (eq & Heq & H). apply bind_inv in H as ([] & G1 & H). apply bind_inv in H as ([] & G2 & _).
    apply guard_true in G1, G2. subst eq. apply pbkdf2_exact in Heq as (SA & <- & <- & F).
    apply dec_lax_exact in Q1, Q2. apply compare_alg_exact in G2.
    exists k1, m1, r1, k2, m2, r2, s1, s2, i1, n1, f1, f2. auto 10.
  - intros (k1 & m1 & r1 & k2 & m2 & r2 & s1 & s2 & i & n & f1 & f2 & -> & -> & Q1 & Q2 & SA & F & M).
    rewrite (proj2 (dec_lax_exact _ _ _ _) Q1), (proj2 (dec_lax_exact _ _ _ _) Q2).
    rewrite (proj2 (pbkdf2_exact L s1 i n f1 s2 i n f2 an ss)) by auto. cbn [bind].
    rewrite (proj2 (compare_alg_exact L m1 m2 an) M). reflexivity.
Qed.
Lemma pbm_cmp : forall L p b ss an, compare_pbm_parameters L p b ss an = Ok true <->
  exists s1 o1 i m1 s2 o2 m2 r, p = PPbm s1 o1 i m1 /\ l_dec_pbm L b = Some ((s2, o2, i, m2), r) /\ salt_rule ss s1 s2 /\
    same_alg L an o1 o2 /\ same_alg L an m1 m2.
Proof.
  intros L p b ss an. unfold compare_pbm_parameters. split.
  - destruct (l_dec_pbm L b) as [[[[[s2 o2] i2] m2] r]|]; [|discriminate]. destruct p as [| | | | | |s1 o1 i1 m1| | | | | |]; try discriminate.
    intro H. assert (G : salts_fit s1 s2 ss && (i1 =? i2) && compare_alg_id L o1 o2 an && compare_alg_id L m1 m2 an = true) by congruence.
    apply andb_prop in G as (G & G4). apply andb_prop in G as (G & G3). apply andb_prop in G as (G1 & G2).
    apply salts_fit_exact in G1. apply Z.eqb_eq in G2. apply compare_alg_exact in G3, G4. subst i2.
    exists s1, o1, i1, m1, s2, o2, m2, r. auto.
  - intros (s1 & o1 & i & m1 & s2 & o2 & m2 & r & -> & -> & S & A & B).
    rewrite (proj2 (salts_fit_exact _ _ _) S), Z.eqb_refl, (proj2 (compare_alg_exact _ _ _ _) A), (proj2 (compare_alg_exact _ _ _ _) B).
    reflexivity.
Qed.

Theorem params_exact : forall L a1 a2 an ss, compare_mac_params L a1 a2 an ss = Ok tt <->
  params_match L ss an a1 a2 /\ bytes_match L ss an a1 a2 /\ a_params a1 <> PAbsent.
Proof.
  intros L [o1 p1] [o2 p2] an ss. unfold compare_mac_params, bytes_match. cbn [a_oid a_params]. split.
  - intro H. apply bind_inv in H as (der & D & H). apply bind_inv in H as ([] & B & H). apply encode_exact in D.
    assert (NA : p1 <> PAbsent) by (intros ->; discriminate D).
    split; [|split; [|exact NA]].
    + destruct (String.eqb_spec o1 "id_PBMAC1") as [->|N1]; [|destruct (String.eqb_spec o1 "id_PasswordBasedMac") as [->|N2]].
      * apply bind_inv in H as (b & O & H). apply bind_inv in H as (r & C & H). apply guard_true in H; subst r.
        apply as_octets_exact in O. apply pbmac1_cmp in C as (k1 & m1 & r1 & k2 & m2 & r2 & s1 & s2 & i & n & f1 & f2 & D1 & D2 & Q1 & Q2 & SA & F & M).
        eapply PM_pbmac1; eauto.
      * apply bind_inv in H as (b & O & H). apply bind_inv in H as (r & C & H). apply guard_true in H; subst r.
        apply as_octets_exact in O. apply pbm_cmp in C as (s1 & f1 & i & m1 & s2 & f2 & m2 & r & -> & D2 & S & A & M).
        eapply PM_pbm; eauto.
      * apply bind_inv in H as (b & O & H). apply guard_true in H. apply bytes_eqb_eq in H; subst b.
        apply as_octets_exact in O. eapply PM_other; eauto.
    + intros -> ->. cbn [negb andb] in B. apply bind_inv in B as (b & O & B). apply guard_true in B. apply bytes_eqb_eq in B; subst b.
      exists der. split; [exact D|now apply as_octets_exact].
  - intros (M & B & NA). assert (E : exists d, der_of L p1 d) by (unfold der_of; destruct p1; cbn [wire]; try congruence; eauto).
    destruct E as (d & D). rewrite (proj2 (encode_exact L p1 d) D). cbn [bind].
    assert (G : (if negb an && ss then let! b := as_octets p2 in guard (bytes_eqb d b) EValueError else Ok tt) = Ok tt).
    { destruct an, ss; try reflexivity. cbn [negb andb]. destruct (B eq_refl eq_refl) as (d' & D' & O).
      assert (d' = d) by (unfold der_of in D, D'; congruence). subst d'.
      rewrite (proj2 (as_octets_exact p2 d) O). cbn [bind]. now rewrite bytes_eqb_refl. }
    rewrite G. cbn [bind]. inversion M as [s1 f1 i m1 oo pp b s2 f2 m2 r O D2 S A MM X1 X2
      |q1 d1 oo pp b k1 m1 r1 k2 m2 r2 s1 s2 i n f1 f2 D1 O E1 E2 Q1 Q2 SA F MM X1 X2|q q1 d1 oo pp N1 N2 D1 O X1 X2]; subst.
    + cbn [String.eqb Ascii.eqb Bool.eqb]. rewrite (proj2 (as_octets_exact p2 b) O). cbn [bind].
      rewrite (proj2 (pbm_cmp L (PPbm s1 f1 i m1) b ss an)) by (do 8 eexists; eauto). reflexivity.
    + rewrite String.eqb_refl. rewrite (proj2 (as_octets_exact p2 b) O). cbn [bind].
      assert (d1 = d) by (unfold der_of in D, D1; congruence). subst d1.
      rewrite (proj2 (pbmac1_cmp L d b an ss)) by (exists k1, m1, r1, k2, m2, r2, s1, s2, i, n, f1, f2; auto 10). reflexivity.
    + apply String.eqb_neq in N1, N2. rewrite N1, N2. assert (d1 = d) by (unfold der_of in D, D1; congruence). subst d1.
      rewrite (proj2 (as_octets_exact p2 d) O). cbn [bind]. now rewrite bytes_eqb_refl.
Qed.
Lemma params_present : forall L ss an a1 a2, params_match L ss an a1 a2 ->
  a_params a1 <> PAbsent /\ a_params a2 <> PAbsent.
Proof.
  intros L ss an a1 a2 M. destruct M as [s1 f1 i m1 oo pp b s2 f2 m2 r O D2 S A MM
      |q1 d1 oo pp b k1 m1 r1 k2 m2 r2 s1 s2 i n f1 f2 D1 O E1 E2 Q1 Q2 SA F MM|q q1 d1 oo pp N1 N2 D1 O]; cbn [a_params];
    (split; [try discriminate; intros ->; discriminate D1|intros ->; destruct O as [O|[O|(O & _)]]; discriminate O]).
Qed.

(** The check on request, response and confirmation. *)
Theorem match_exact : forall L req resp conf ss an lw,
  mac_protection_algorithms_must_match L req resp conf ss an true lw = Ok tt <->
  exists a1 a2, alg_is req a1 /\ alg_is resp a2 /\ In (a_oid a2) mac_oids /\ (lw = true -> In (a_oid a2) lw_macs) /\
    a_oid a1 = a_oid a2 /\ params_match L ss an a1 a2 /\ bytes_match L ss an a1 a2 /\ (ss = true -> conf = None).
Proof.
  intros L req resp conf ss an lw. unfold mac_protection_algorithms_must_match, prot_alg, alg_is. split.
  - destruct (h_alg (m_header req)) as [a1|] eqn:E1; [|discriminate]. destruct (h_alg (m_header resp)) as [a2|] eqn:E2; [|discriminate].
    cbn [bind negb]. intro H. apply bind_inv in H as (t & T & H). apply bind_inv in H as ([] & G1 & H).
    apply bind_inv in H as ([] & G2 & H). apply bind_inv in H as ([] & G3 & H). apply bind_inv in H as ([] & P & H).
    apply guard_true in G1, G2, G3. apply String.eqb_eq in G3.
    apply (kind_exact _ _ _ _ _ _ E2) in T as (T & _).
    apply params_exact in P as (M & B & NA). exists a1, a2. repeat split; auto.
    + inversion T; subst; try discriminate G1; auto.
    + intros ->. cbn [negb orb] in G2. now apply lwmac_dom.
    + intros ->. destruct conf as [c|]; [|reflexivity]. exfalso. cbn [bind] in H.
      destruct (h_alg (m_header c)) as [a3|]; [|discriminate H]. cbn [bind] in H. apply guard_true in H.
      apply compare_alg_exact in H as (_ & H). destruct (params_present _ _ _ _ _ M) as (_ & N). contradiction.
  - intros (a1 & a2 & E1 & E2 & I & LW & O & M & B & C). rewrite E1, E2. cbn [bind negb].
    rewrite (proj2 (kind_exact _ _ false true true T_MAC E2)).
    2:{ split; [now constructor|]. repeat split; try discriminate. }
    cbn [bind ptype_value]. rewrite String.eqb_refl. cbn [guard bind].
    assert (G2 : negb lw || has (a_oid a2) LWCMP_MAC_OID_2_NAME = true).
    { destruct lw; [|reflexivity]. cbn [negb orb]. apply lwmac_dom. now apply LW. }
    rewrite G2. cbn [guard bind]. rewrite O, String.eqb_refl. cbn [guard bind].
    rewrite (proj2 (params_exact L a1 a2 an ss)) by (repeat split; auto; apply (params_present _ _ _ _ _ M)). cbn [bind].
    destruct conf as [c|]; [|reflexivity]. destruct ss; [discriminate (C eq_refl)|].
    reflexivity.
Qed.
(** A confirmation changes nothing when the salts have to differ. *)
Theorem conf_ignored : forall L req resp conf an lw,
  mac_protection_algorithms_must_match L req resp conf false an true lw =
  mac_protection_algorithms_must_match L req resp None false an true lw.
Proof.
  intros L req resp [c|] an lw; [|reflexivity]. unfold mac_protection_algorithms_must_match, prot_alg.
  destruct (h_alg (m_header req)) as [a1|]; [|reflexivity]. destruct (h_alg (m_header resp)) as [a2|]; [|reflexivity].
  cbn [bind negb]. destruct (get_protection_type_from_pkimessage (m_header resp) false true true) as [t|]; [|reflexivity].
  cbn [bind]. destruct (guard (String.eqb (ptype_value t) "mac") EValueError) as [[]|]; [|reflexivity].
  cbn [bind]. destruct (guard (negb lw || has (a_oid a2) LWCMP_MAC_OID_2_NAME) EValueError) as [[]|]; [|reflexivity].
  cbn [bind]. destruct (guard (String.eqb (a_oid a1) (a_oid a2)) EValueError) as [[]|]; [|reflexivity].
  cbn [bind]. destruct (compare_mac_params L a1 a2 an false) as [[]|] eqn:E; [|reflexivity]. reflexivity.
Qed.
(** Without [strict] only the kinds of protection are compared. *)
Theorem not_strict_exact : forall L req resp conf ss an lw,
  mac_protection_algorithms_must_match L req resp conf ss an false lw = Ok tt <->
  exists a1 a2 t, alg_is req a1 /\ alg_is resp a2 /\ oid_kind (a_oid a1) t /\ oid_kind (a_oid a2) t /\
    (lw = true -> lw_allowed (a_oid a1) t /\ lw_allowed (a_oid a2) t) /\
    opt_msg (fun c => exists a3, alg_is c a3 /\ oid_kind (a_oid a3) t /\ (lw = true -> lw_allowed (a_oid a3) t)) conf.
Proof.
  assert (V : forall s t, String.eqb (ptype_value s) (ptype_value t) = true <-> s = t)
    by (intros [] []; split; intro H; try reflexivity; discriminate H).
  intros L req resp conf ss an lw. unfold mac_protection_algorithms_must_match, compare_not_strict_mac, prot_alg, alg_is. split.
  - destruct (h_alg (m_header req)) as [a1|] eqn:E1; [|discriminate]. destruct (h_alg (m_header resp)) as [a2|] eqn:E2; [|discriminate].
    cbn [bind negb]. intro H. apply bind_inv in H as (t2 & T2 & H). apply bind_inv in H as (t1 & T1 & H).
    apply bind_inv in H as ([] & G & H). apply guard_true in G. apply V in G; subst t1.
    apply (kind_exact _ _ _ _ _ _ E1) in T1 as (K1 & _ & _ & L1). apply (kind_exact _ _ _ _ _ _ E2) in T2 as (K2 & _ & _ & L2).
    exists a1, a2, t2. do 5 (split; [solve [auto]|]). destruct conf as [c|]; [|exact I]. cbn [opt_msg].
    apply bind_inv in H as (t3 & T3 & H). apply guard_true in H. apply V in H; subst t3.
    destruct (h_alg (m_header c)) as [a3|] eqn:E3.
    2:{ unfold get_protection_type_from_pkimessage in T3. rewrite E3 in T3. discriminate T3. }
    destruct (proj1 (kind_exact _ _ _ _ _ _ E3) T3) as (K3 & _ & _ & L3). exists a3. auto.
  - intros (a1 & a2 & t & E1 & E2 & K1 & K2 & LW & C). rewrite E1, E2. cbn [bind negb].
    rewrite (proj2 (kind_exact _ _ lw true true t E2)) by (repeat split; auto; intro X; now apply LW).
    rewrite (proj2 (kind_exact _ _ lw true true t E1)) by (repeat split; auto; intro X; now apply LW).
    cbn [bind]. rewrite String.eqb_refl. cbn [guard bind]. destruct conf as [c|]; [|reflexivity].
    destruct C as (a3 & E3 & K3 & L3). rewrite (proj2 (kind_exact _ _ lw true true t E3)) by (repeat split; auto).
    cbn [bind]. now rewrite String.eqb_refl.
Qed.

(** ** Messages made with the same settings *)
Lemma used_salt_or : forall o rnd g, (match o_salt o with
    | None => Ok (rnd 16) | Some None => Err EValueError | Some (Some s) => str_to_bytes s end) = Ok g ->
  used_salt o rnd (or_bytes g (rnd 16)).
Proof.
  intros o rnd g H. exists g. split; [|apply or_bytes_len].
  destruct (o_salt o) as [[s|]|]; [exact H|discriminate H|congruence].
Qed.
Lemma used_salt_fun : forall o rnd s s', used_salt o rnd s -> used_salt o rnd s' -> s = s'.
Proof.
  intros o rnd s s' (g & G & E) (g' & G' & E'). destruct (o_salt o) as [[v|]|]; [|contradiction|].
  - assert (g = g') by congruence. subst g'. now rewrite E, E'.
  - subst g g'. now rewrite E, E'.
Qed.
Lemma prep_pbm : forall rnd prot o a, prepare_prot_alg_id rnd prot o = Ok a -> protection_get prot = Ok PA_PBM ->
  exists s owf mac, used_salt o rnd s /\ a = Alg "id_PasswordBasedMac" (PPbm s owf (dflt (o_iter o) 1000) mac) /\
    prepare_sha_alg_id (dflt (o_hash o) "sha256") = Ok owf /\ prepare_hmac_alg_id (dflt (o_hash o) "sha256") = Ok mac /\
    Z.of_nat (length s) <= 128.
Proof.
  intros rnd prot o a H G. unfold prepare_prot_alg_id in H. rewrite G in H. cbn [bind] in H.
  apply bind_inv in H as (g & S & H). apply bind_inv in H as (p & P & H). inversion H; subst a; clear H.
  unfold prepare_password_based_mac_parameters in P. apply bind_inv in P as (owf & W & P).
  apply bind_inv in P as (mac & MM & P). apply checked_ok in P as (-> & C). cbn in C. apply Z.leb_le in C.
  exists (or_bytes g (rnd 16)), owf, mac. repeat split; auto. now apply used_salt_or.
Qed.
Lemma prep_pbmac1 : forall rnd prot o a, prepare_prot_alg_id rnd prot o = Ok a -> protection_get prot = Ok PA_PBMAC1 ->
  exists s mac, used_salt o rnd s /\
    a = Alg "id_PBMAC1" (PPbmac1 (Alg "id_PBKDF2" (PPbkdf2 (SaltSpec s) (dflt (o_iter o) 262144) (Some (dflt (o_len o) 32)) mac)) mac) /\
    prepare_hmac_alg_id (dflt (o_hash o) "sha512") = Ok mac /\ 1 <= dflt (o_iter o) 262144 /\ 1 <= dflt (o_len o) 32.
Proof.
  intros rnd prot o a H G. unfold prepare_prot_alg_id in H. rewrite G in H. cbn [bind] in H.
  apply bind_inv in H as (g & S & H). apply bind_inv in H as (p & P & H). inversion H; subst a; clear H.
  unfold prepare_pbmac1_parameters in P. apply bind_inv in P as (kdf & K & P). apply bind_inv in P as (mac & MM & P).
  inversion P; subst p; clear P. unfold prepare_pbkdf2_alg_id in K. apply bind_inv in K as (prf & PP & K).
  apply bind_inv in K as (q & Q & K). inversion K; subst kdf; clear K. apply checked_ok in Q as (-> & C).
  assert (prf = mac) by congruence. subst prf. cbn [constraints_ok] in C. apply andb_prop in C as (C1 & C2). apply Z.leb_le in C1, C2.
  exists (or_bytes g (rnd 16)), mac. repeat split; auto. now apply used_salt_or.
Qed.
Lemma hmac_shape : forall h a, prepare_hmac_alg_id h = Ok a -> exists o, a = Alg o PAbsent.
Proof. intros h a H. unfold prepare_hmac_alg_id in H. apply bind_inv in H as (o & _ & H). inversion H; subst. eauto. Qed.
Lemma sha_shape : forall h a, prepare_sha_alg_id h = Ok a -> exists o, a = Alg o (PRaw [5; 0]).
Proof. intros h a H. unfold prepare_sha_alg_id in H. apply bind_inv in H as (o & _ & H). inversion H; subst. eauto. Qed.
Lemma octets_raw : forall b b', octets (PRaw b) b' -> b' = b.
Proof. intros b b' [H|[H|(H & _)]]; try discriminate H. congruence. Qed.
Lemma decodes_raw : forall A (dec : bytes -> option (A * bytes)) b x y, decodes dec (PRaw b) x -> dec b = Some (y, []) -> x = y.
Proof.
  intros A dec b x y (b' & r & [E|E] & D) E'; [|discriminate E]. inversion E; subst b'.
  assert (Q : Some (x, r) = Some (y, [])) by (rewrite <- D; exact E'). inversion Q; reflexivity.
Qed.

Lemma same_pbm : forall L s1 s2 ow i mo ss, codec_ok L -> enc_ok L -> Z.of_nat (length s1) <= 128 -> Z.of_nat (length s2) <= 128 ->
  (params_match L ss true (Alg "id_PasswordBasedMac" (PPbm s1 (Alg ow (PRaw [5; 0])) i (Alg mo PAbsent)))
     (wire_alg L (Alg "id_PasswordBasedMac" (PPbm s2 (Alg ow (PRaw [5; 0])) i (Alg mo PAbsent)))) <-> salt_rule ss s1 s2).
Proof.
  intros L s1 s2 ow i mo ss CK EN L1 L2. unfold wire_alg. cbn [a_oid a_params wire].
  assert (D : l_dec_pbm L (l_enc L (PPbm s2 (Alg ow (PRaw [5; 0])) i (Alg mo PAbsent))) =
              Some ((s2, wire_alg L (Alg ow (PRaw [5; 0])), i, wire_alg L (Alg mo PAbsent)), [])).
  { apply ck_pbm; auto. cbn [wf_params wf_alg]. rewrite (proj2 (ck_null _ CK)), (proj2 (Z.leb_le _ _) L2). reflexivity. }
  split.
  - intro M. inversion M as [a1 f1 j m1 oo pp b a2 f2 m2 r O D2 S A MM X1 X2|q1 d1 oo pp b k1 m1 r1 k2 m2 r2 z1 z2 j n f1 f2 D1 O E1 E2 Q1 Q2 SA F MM X1 X2|q q1 d1 oo pp N1 N2 D1 O X1 X2]; subst; [|congruence].
    apply octets_raw in O; subst b. rewrite D in D2. inversion D2; subst. exact S.
  - intro S. eapply PM_pbm; eauto; [left; reflexivity| |]; symmetry; apply EN.
Qed.
Lemma same_pbmac1 : forall L s1 s2 i n mo ss, codec_ok L -> 1 <= i -> 1 <= n ->
  let p s := PPbmac1 (Alg "id_PBKDF2" (PPbkdf2 (SaltSpec s) i (Some n) (Alg mo PAbsent))) (Alg mo PAbsent) in
  (params_match L ss true (Alg "id_PBMAC1" (p s1)) (wire_alg L (Alg "id_PBMAC1" (p s2))) <-> salt_rule ss s1 s2).
Proof.
  intros L s1 s2 i n mo ss CK I N p. unfold wire_alg. cbn [a_oid a_params].
  assert (WK : forall s, wf_params L (PPbkdf2 (SaltSpec s) i (Some n) (Alg mo PAbsent)) = true).
  { intro s. cbn [wf_params wf_alg wf_psalt]. apply Z.leb_le in I, N. now rewrite I, N. }
  assert (WP : forall s, wf_params L (p s) = true).
  { intro s. unfold p. cbn [wf_params wf_alg]. change (wf_params L (PPbkdf2 (SaltSpec s) i (Some n) (Alg mo PAbsent)) && true = true). now rewrite WK. }
  assert (D : forall s, l_dec_pbmac1 L (l_enc L (p s)) =
     Some ((Alg "id_PBKDF2" (PRaw (l_enc L (PPbkdf2 (SaltSpec s) i (Some n) (Alg mo PAbsent)))), Alg mo PAbsent), [])).
  { intro s. unfold p. rewrite (ck_pbmac1 _ CK) by apply WP. reflexivity. }
  assert (K : forall s, l_dec_pbkdf2 L (l_enc L (PPbkdf2 (SaltSpec s) i (Some n) (Alg mo PAbsent))) =
     Some ((SaltSpec s, i, Some n, Alg mo PAbsent), [])).
  { intro s. rewrite (ck_pbkdf2 _ CK) by apply WK. reflexivity. }
  change (wire L (p s2)) with (PRaw (l_enc L (p s2))). split.
  - intro M. inversion M as [a1 f1 j m1 oo pp b a2 f2 m2 r O D2 S A MM X1 X2|q1 d1 oo pp b k1 m1 r1 k2 m2 r2 z1 z2 j nn f1 f2 D1 O E1 E2 Q1 Q2 SA F MM X1 X2|q q1 d1 oo pp N1 N2 D1 O X1 X2]; subst; [|congruence].
    apply octets_raw in O; subst b. change (der_of L (p s1) d1) in D1. unfold der_of in D1.
    change (wire L (p s1)) with (PRaw (l_enc L (p s1))) in D1. assert (d1 = l_enc L (p s1)) by congruence. subst d1.
    rewrite D in E1, E2. inversion E1; subst k1. inversion E2; subst k2. cbn [a_params] in Q1, Q2.
    apply decodes_raw with (1 := Q1) in K as Q1'. apply decodes_raw with (1 := Q2) in K as Q2'.
    inversion Q1'; subst. inversion Q2'; subst. inversion SA; subst. assumption.
  - intro S. eapply PM_pbmac1 with (d := l_enc L (p s1)) (b := l_enc L (p s2)).
    + reflexivity.
    + left; reflexivity.
    + apply D.
    + apply D.
    + cbn [a_params]. exists (l_enc L (PPbkdf2 (SaltSpec s1) i (Some n) (Alg mo PAbsent))), []. split; [now left|apply K].
    + cbn [a_params]. exists (l_enc L (PPbkdf2 (SaltSpec s2) i (Some n) (Alg mo PAbsent))), []. split; [now left|apply K].
    + now constructor.
    + reflexivity.
    + reflexivity.
Qed.
Theorem match_pair : forall L ra ra' rb rb' m1 m2 p1 p2 o1 o2 q r pa s1 s2 conf ss lw, codec_ok L -> enc_ok L ->
  protect_pkimessage L ra ra' m1 p1 o1 = Ok q -> protect_pkimessage L rb rb' m2 p2 o2 = Ok r ->
  protection_get p1 = Ok pa -> protection_get p2 = Ok pa -> pa = PA_PBMAC1 \/ pa = PA_PBM ->
  o_iter o1 = o_iter o2 -> o_len o1 = o_len o2 -> o_hash o1 = o_hash o2 -> used_salt o1 ra s1 -> used_salt o2 rb s2 ->
  (mac_protection_algorithms_must_match L q (transport L r) conf ss true true lw = Ok tt <->
   salt_rule ss s1 s2 /\ (ss = true -> conf = None)).
Proof.
  intros L ra ra' rb rb' m1 m2 p1 p2 o1 o2 q r pa s1 s2 conf ss lw CK EN H1 H2 G1 G2 PA EI EL EH U1 U2.
  destruct (protect_inv _ _ _ _ _ _ _ H1) as (h1 & a1 & v1 & w1 & c1 & A1 & _ & _ & _ & EH1 & _ & _).
  destruct (protect_inv _ _ _ _ _ _ _ H2) as (h2 & a2 & v2 & w2 & c2 & A2 & _ & _ & _ & EH2 & _ & _).
  assert (X1 : alg_is q a1) by (unfold alg_is; now rewrite EH1).
  assert (X2 : alg_is (transport L r) (wire_alg L a2)).
  { unfold alg_is. cbn [transport set_header m_header wire_header h_alg]. now rewrite EH2. }
  assert (KEY : a_oid a1 = a_oid a2 /\ In (a_oid a2) lw_macs /\ (params_match L ss true a1 (wire_alg L a2) <-> salt_rule ss s1 s2)).
  { destruct PA as [-> | ->].
    - destruct (prep_pbmac1 _ _ _ _ A1 G1) as (x1 & k1 & V1 & -> & B1 & I1 & N1).
      destruct (prep_pbmac1 _ _ _ _ A2 G2) as (x2 & k2 & V2 & -> & B2 & I2 & N2).
      rewrite (used_salt_fun _ _ _ _ V1 U1), (used_salt_fun _ _ _ _ V2 U2).
      rewrite EI, EL, EH in *. assert (k1 = k2) by congruence. subst k2. destruct (hmac_shape _ _ B1) as (mo & ->).
      split; [reflexivity|]. split; [left; reflexivity|]. now apply same_pbmac1.
    - destruct (prep_pbm _ _ _ _ A1 G1) as (x1 & w & k1 & V1 & -> & W1 & B1 & N1).
      destruct (prep_pbm _ _ _ _ A2 G2) as (x2 & w' & k2 & V2 & -> & W2 & B2 & N2).
      rewrite (used_salt_fun _ _ _ _ V1 U1) in *. rewrite (used_salt_fun _ _ _ _ V2 U2) in *.
      rewrite EI, EH in *. assert (k1 = k2) by congruence. assert (w = w') by congruence. subst k2 w'.
      destruct (hmac_shape _ _ B1) as (mo & ->). destruct (sha_shape _ _ W1) as (ow & ->).
      split; [reflexivity|]. split; [right; left; reflexivity|]. now apply same_pbm. }
  destruct KEY as (O & I & M). rewrite match_exact. split.
  - intros (b1 & b2 & Y1 & Y2 & _ & _ & _ & P & _ & C). unfold alg_is in *. assert (b1 = a1) by congruence.
    assert (b2 = wire_alg L a2) by congruence. subst. split; [now apply M|exact C].
  - intros (S & C). exists a1, (wire_alg L a2). repeat split; auto.
    + assert (Q : forall x, In x lw_macs -> In x mac_oids) by (intros x [<-|[<-|[]]]; vm_compute; tauto). now apply Q.
    + now apply M.
    + discriminate.
Qed.

(** ** The salt *)
Theorem salt_read : forall L ra ra' m prot o q pa s, codec_ok L ->
  protect_pkimessage L ra ra' m prot o = Ok q -> protection_get prot = Ok pa -> pa = PA_PBMAC1 \/ pa = PA_PBM ->
  used_salt o ra s ->
  exists a, alg_is q a /\ get_cmp_protection_salt L a = Ok s /\ get_cmp_protection_salt L (wire_alg L a) = Ok s.
Proof.
  intros L ra ra' m prot o q pa s CK H G PA U.
  destruct (protect_inv _ _ _ _ _ _ _ H) as (h1 & a & v1 & w1 & c1 & A & _ & _ & _ & EH & _ & _).
  exists a. split; [unfold alg_is; now rewrite EH|]. destruct PA as [-> | ->].
  - destruct (prep_pbmac1 _ _ _ _ A G) as (x & k & V & -> & B & I & N). rewrite (used_salt_fun _ _ _ _ V U) in *.
    destruct (hmac_shape _ _ B) as (mo & ->). split; [reflexivity|].
    unfold get_cmp_protection_salt, wire_alg. cbn [a_oid a_params wire]. rewrite String.eqb_refl. unfold load.
    assert (WK : wf_params L (PPbkdf2 (SaltSpec s) (dflt (o_iter o) 262144) (Some (dflt (o_len o) 32)) (Alg mo PAbsent)) = true).
    { cbn [wf_params wf_alg wf_psalt]. apply Z.leb_le in I, N. now rewrite I, N. }
    rewrite (ck_pbmac1 _ CK).
    2:{ cbn [wf_params wf_alg]. change (wf_params L (PPbkdf2 (SaltSpec s) (dflt (o_iter o) 262144) (Some (dflt (o_len o) 32)) (Alg mo PAbsent)) && true = true). now rewrite WK. }
    cbn [bind wire_alg a_params wire a_oid]. rewrite (ck_pbkdf2 _ CK) by exact WK. reflexivity.
  - destruct (prep_pbm _ _ _ _ A G) as (x & w & k & V & -> & W & B & N). rewrite (used_salt_fun _ _ _ _ V U) in *.
    destruct (hmac_shape _ _ B) as (mo & ->). destruct (sha_shape _ _ W) as (ow & ->). split; [reflexivity|].
    unfold get_cmp_protection_salt, wire_alg. cbn [a_oid a_params wire].
    change (String.eqb "id_PasswordBasedMac" "id_PBMAC1") with false. cbv iota. rewrite String.eqb_refl.
    unfold load. cbn [sel_pbm]. rewrite (ck_pbm _ CK).
    2:{ cbn [wf_params wf_alg]. rewrite (proj2 (ck_null _ CK)), (proj2 (Z.leb_le _ _) N). reflexivity. }
    reflexivity.
Qed.
Theorem salt_exact : forall L a s, get_cmp_protection_salt L a = Ok s <->
  (a_oid a = "id_PasswordBasedMac" /\ exists f i m, (a_params a = PPbm s f i m \/ decodes (l_dec_pbm L) (a_params a) (s, f, i, m))) \/
  (a_oid a = "id_PBMAC1" /\
   ((exists ko i n f m, a_params a = PPbmac1 (Alg ko (PPbkdf2 (SaltSpec s) i n f)) m) \/
    (exists k m i n f, decodes (l_dec_pbmac1 L) (a_params a) (k, m) /\ decodes (l_dec_pbkdf2 L) (a_params k) (SaltSpec s, i, n, f)))).
Proof.
  assert (LX : forall A (dec : bytes -> option (A * bytes)) p x, load (fun _ => None) dec None p = Ok x <-> decodes dec p x).
  { intros A dec p x. rewrite <- dec_lax_exact. unfold dec_lax. destruct (load _ dec None p); split; congruence. }
  intros L [o p] s. unfold get_cmp_protection_salt. cbn [a_oid a_params].
  destruct (String.eqb_spec o "id_PBMAC1") as [->|N1].
  - split.
    + intro H. right. split; [reflexivity|].
      assert (GEN : (let! (k, _) := load (fun _ => None) (l_dec_pbmac1 L) None p in
        let! (s0, _, _, _) := load (fun _ => None) (l_dec_pbkdf2 L) None (a_params k) in
        match s0 with SaltSpec b => Ok b | SaltOther _ => Err EValueError end) = Ok s ->
        exists k m i n f, decodes (l_dec_pbmac1 L) p (k, m) /\ decodes (l_dec_pbkdf2 L) (a_params k) (SaltSpec s, i, n, f)).
      { intro H'. apply bind_inv in H' as ([k m] & D & H'). apply bind_inv in H' as ([[[x i] n] f] & E & H').
        destruct x as [b|]; [|discriminate H']. assert (b = s) by congruence. subst b. exists k, m, i, n, f. split; now apply LX. }
      destruct p as [| | | |[ko kp] mm| | | | | | | |]; try (right; exact (GEN H)).
      left. cbn [a_params] in H. destruct kp as [| | | | |[b|] i n f| | | | | | |]; try discriminate H.
      assert (b = s) by congruence. subst. eauto 8.
    + intros [(E & _)|(_ & [(ko & i & n & f & m & ->)|(k & m & i & n & f & D & E)])]; [discriminate E|reflexivity|].
      assert (P : exists b, p = PRaw b \/ p = POctets b) by (destruct D as (b & r & Q & _); eauto).
      apply LX in D, E. destruct P as (b & [-> | ->]); rewrite D; cbn [bind]; rewrite E; reflexivity.
  - destruct (String.eqb_spec o "id_PasswordBasedMac") as [->|N2].
    + split.
      * intro H. left. split; [reflexivity|]. apply bind_inv in H as ([[[x f] i] m] & D & H). assert (x = s) by congruence. subst x.
        exists f, i, m. unfold load in D. destruct (sel_pbm p) as [q|] eqn:Q.
        { left. destruct p; try discriminate Q. inversion Q; subst. inversion D; subst. reflexivity. }
        right. apply LX. unfold load. exact D.
      * intros [(_ & f & i & m & [-> |(b & r & P & D)])|(E & _)]; [reflexivity| |discriminate E].
        unfold load. destruct P as [-> | ->]; cbn [sel_pbm]; rewrite D; destruct r; reflexivity.
    + split; [discriminate|]. intros [(E & _)|(E & _)]; congruence.
Qed.
