(** Proofs about verifying hybrid protection (C98) and original messages (C100). *)
From Coq Require Import String Ascii Lia.
From Verif Require Import Prelude PreludeFacts PyStr CompLoadModel HdrModel ProtTab ProtModel ProtSpec ProtMac ProtMacMsg ProtSig ProtKind.
From Verif Require Import ProtMatchSpec ProtHybModel ProtHybSpec.
Open Scope string_scope.
Open Scope Z_scope.
Local Notation length := List.length.

(** ** Entries *)

Lemma none_cons : forall t i r, none_of t (i :: r) <-> i_type i <> t /\ none_of t r.
Proof.
  intros t i r; unfold none_of; split.
  - intro H. split; [apply H; now left|]. intros j J. apply H. now right.
  - intros (A & B) j [<-|J]; auto.
Qed.
Lemma last_cons : forall t i r j, last_entry t (i :: r) j <-> last_entry t r j \/ (j = i /\ i_type i = t /\ none_of t r).
Proof.
  intros t i r j; split.
  - intros ([|x l1] & l2 & E & T & N); cbn [app] in E; inversion E; subst.
    + right. auto.
    + left. exists l1, l2. auto.
  - intros [(l1 & l2 & -> & T & N)|(-> & T & N)].
    + exists (i :: l1), l2. auto.
    + exists [], r. auto.
Qed.
Lemma last_In : forall t l i, last_entry t l i -> In i l /\ i_type i = t.
Proof. intros t l i (l1 & l2 & -> & T & _). split; [apply in_or_app; right; now left|exact T]. Qed.
Lemma last_none : forall t l i, last_entry t l i -> none_of t l -> False.
Proof. intros t l i H N. destruct (last_In _ _ _ H) as (I & T). exact (N _ I T). Qed.
Lemma last_fun : forall t l i j, last_entry t l i -> last_entry t l j -> i = j.
Proof.
  induction l as [|x l IH]; intros i j H K.
  - destruct (last_In _ _ _ H) as ([] & _).
  - apply last_cons in H, K. destruct H as [H|(-> & _ & N)], K as [K|(-> & _ & N')]; auto.
    + destruct (last_none _ _ _ H N').
    + destruct (last_none _ _ _ K N).
Qed.
Lemma last_or_none : forall t l, none_of t l \/ exists i, last_entry t l i.
Proof.
  induction l as [|x l [IH|(i & IH)]].
  - left. intros i [].
  - destruct (string_dec (i_type x) t) as [E|E].
    + right. exists x. apply last_cons. auto.
    + left. now apply none_cons.
  - right. exists i. apply last_cons. auto.
Qed.
Lemma decode_info_exact : forall A (dec : bytes -> option (A * bytes)) i x,
  decode_info dec i = Ok x <-> decodes dec (i_val i) x.
Proof.
  intros A dec i x. unfold decode_info, load, decodes. split.
  - destruct (i_val i) eqn:E; try discriminate; destruct (dec b) as [[y [|z r]]|] eqn:D; try discriminate; intro H; inversion H; subst;
      eexists b, _; split; eauto.
  - intros (b & r & [E|E] & D); rewrite E, D; destruct r; reflexivity.
Qed.
Lemma decodes_fun : forall A (dec : bytes -> option (A * bytes)) p x y, decodes dec p x -> decodes dec p y -> x = y.
Proof. intros A dec p x y (b & r & H & D) (b' & r' & H' & D'). destruct H as [->| ->], H' as [H'|H']; inversion H'; subst; congruence. Qed.

(** ** Reading the alternative signature *)

Definition got {A B} (dec : bytes -> option (A * bytes)) (t : string) (l : list info) (old new : option A) (_ : B) : Prop :=
  (none_of t l /\ new = old) \/ exists i x, last_entry t l i /\ decodes dec (i_val i) x /\ new = Some x.
Lemma got_skip : forall A B dec t i r (old new : option A) (z : B), i_type i <> t -> got dec t r old new z -> got dec t (i :: r) old new z.
Proof.
  intros A B dec t i r old new z N [(H & E)|(j & x & H & D & E)].
  - left. split; [now apply none_cons|exact E].
  - right. exists j, x. split; [apply last_cons; auto|auto].
Qed.
Lemma got_take : forall A B dec t i r (y : A) (old new : option A) (z : B), i_type i = t -> decodes dec (i_val i) y ->
  got dec t r (Some y) new z -> got dec t (i :: r) old new z.
Proof.
  intros A B dec t i r y old new z T D [(H & E)|(j & x & H & D' & E)].
  - right. exists i, y. split; [apply last_cons; auto|auto].
  - right. exists j, x. split; [apply last_cons; auto|auto].
Qed.
Definition keep (i : info) : bool := negb (String.eqb (i_type i) alt_sig).
Lemma readable_cons : forall L Y i r, readable L Y (i :: r) <-> readable L Y [i] /\ readable L Y r.
Proof.
  intros L Y i r; unfold readable; split.
  - intro H. split; intros j J; apply H; [destruct J as [<-|[]]; now left|now right].
  - intros (A & B) j [<-|J]; [apply A; now left|now apply B].
Qed.
Lemma scan_sound : forall L Y l f f', catalyst_scan L Y l f = Ok f' ->
  readable L Y l /\ got (l_dec_alg L) alt_alg l (f_alg f) (f_alg f') tt /\ got (y_dec_spki Y) alt_spki l (f_key f) (f_key f') tt /\
  got (y_dec_bits Y) alt_sig l (f_sig f) (f_sig f') tt /\ f_rest f' = (f_rest f ++ filter keep l)%list.
Proof.
  induction l as [|i r IH]; intros f f' H.
  - cbn in H. inversion H; subst. cbn [filter]. rewrite app_nil_r. repeat split; try (left; split; [intros ? []|reflexivity]); try (intros; contradiction).
  - cbn [catalyst_scan] in H. cbn [filter].
    destruct (String.eqb (i_type i) alt_alg) eqn:E1; [|destruct (String.eqb (i_type i) alt_spki) eqn:E2; [|destruct (String.eqb (i_type i) alt_sig) eqn:E3]].
    + apply String.eqb_eq in E1. apply bind_inv in H as (a & D & H). apply decode_info_exact in D.
      apply IH in H as (R & A & K & S & F). cbn [f_alg f_key f_sig f_rest] in *.
      unfold keep at 1. rewrite E1. change (String.eqb alt_alg alt_sig) with false. cbn [negb].
      split; [|split; [|split; [|split]]].
      * apply readable_cons. split; [|exact R]. intros j [<-|[]]. rewrite E1. split; [eauto|split; intro X; discriminate X].
      * now apply (got_take _ _ _ _ _ _ a).
      * apply got_skip; [rewrite E1; discriminate|exact K].
      * apply got_skip; [rewrite E1; discriminate|exact S].
      * rewrite F, <- app_assoc. reflexivity.
    + apply String.eqb_eq in E2. apply bind_inv in H as (a & D & H). apply decode_info_exact in D.
      apply IH in H as (R & A & K & S & F). cbn [f_alg f_key f_sig f_rest] in *.
      unfold keep at 1. rewrite E2. change (String.eqb alt_spki alt_sig) with false. cbn [negb].
      split; [|split; [|split; [|split]]].
      * apply readable_cons. split; [|exact R]. intros j [<-|[]]. rewrite E2. split; [intro X; discriminate X|split; [eauto|intro X; discriminate X]].
      * apply got_skip; [rewrite E2; discriminate|exact A].
      * now apply (got_take _ _ _ _ _ _ a).
      * apply got_skip; [rewrite E2; discriminate|exact S].
      * rewrite F, <- app_assoc. reflexivity.
    + apply String.eqb_eq in E3. apply bind_inv in H as (a & D & H). apply decode_info_exact in D.
      apply IH in H as (R & A & K & S & F). cbn [f_alg f_key f_sig f_rest] in *.
      unfold keep at 1. rewrite E3. change (String.eqb alt_sig alt_sig) with true. cbn [negb].
      split; [|split; [|split; [|split]]].
      * apply readable_cons. split; [|exact R]. intros j [<-|[]]. rewrite E3. split; [intro X; discriminate X|split; [intro X; discriminate X|eauto]].
      * apply got_skip; [rewrite E3; discriminate|exact A].
      * apply got_skip; [rewrite E3; discriminate|exact K].
      * now apply (got_take _ _ _ _ _ _ a).
      * exact F.
    + unfold keep at 1. rewrite E3. cbn [negb]. apply String.eqb_neq in E1, E2, E3.
      apply IH in H as (R & A & K & S & F). cbn [f_alg f_key f_sig f_rest] in *.
      split; [|split; [|split; [|split]]].
      * apply readable_cons. split; [|exact R]. intros j [<-|[]]. split; [congruence|split; congruence].
      * now apply got_skip.
      * now apply got_skip.
      * now apply got_skip.
      * rewrite F, <- app_assoc. reflexivity.
Qed.
Lemma scan_total : forall L Y l f, readable L Y l -> exists f', catalyst_scan L Y l f = Ok f'.
Proof.
  induction l as [|i r IH]; intros f R.
  - now exists f.
  - apply readable_cons in R as (A & R). specialize (A i (or_introl eq_refl)) as (A1 & A2 & A3). cbn [catalyst_scan].
    destruct (String.eqb (i_type i) alt_alg) eqn:E1; [|destruct (String.eqb (i_type i) alt_spki) eqn:E2; [|destruct (String.eqb (i_type i) alt_sig) eqn:E3]].
    + apply String.eqb_eq in E1. destruct (A1 E1) as (x & D). apply decode_info_exact in D. rewrite D. cbn [bind]. now apply IH.
    + apply String.eqb_eq in E2. destruct (A2 E2) as (x & D). apply decode_info_exact in D. rewrite D. cbn [bind]. now apply IH.
    + apply String.eqb_eq in E3. destruct (A3 E3) as (x & D). apply decode_info_exact in D. rewrite D. cbn [bind]. now apply IH.
    + now apply IH.
Qed.
Lemma got_none : forall A B dec t l (z : B), got dec t l (@None A) None z <-> none_of t l.
Proof.
  intros A B dec t l z; split.
  - intros [(H & _)|(i & x & _ & _ & E)]; [exact H|discriminate E].
  - intro H. left. auto.
Qed.
Lemma got_some : forall A B dec t l (x : A) (z : B), got dec t l None (Some x) z <-> exists i, last_entry t l i /\ decodes dec (i_val i) x.
Proof.
  intros A B dec t l x z; split.
  - intros [(_ & E)|(i & y & H & D & E)]; [discriminate E|]. inversion E; subst. eauto.
  - intros (i & H & D). right. eauto.
Qed.
Lemma got_fun : forall A B dec t l (x y : option A) (z : B), got dec t l None x z -> got dec t l None y z -> x = y.
Proof.
  intros A B dec t l x y z [(N & E)|(i & u & H & D & E)] [(N' & E')|(j & w & H' & D' & E')]; subst; auto.
  - destruct (last_none _ _ _ H' N).
  - destruct (last_none _ _ _ H N').
  - rewrite (last_fun _ _ _ _ H H') in D. now rewrite (decodes_fun _ _ _ _ _ D D').
Qed.
Lemma vals_exact : forall L Y l must a ki s rest,
  get_catalyst_info_vals L Y l must = Ok (Some (a, ki, s, rest)) <->
  readable L Y l /\ (exists i, last_entry alt_alg l i /\ decodes (l_dec_alg L) (i_val i) a) /\
  (exists j, last_entry alt_sig l j /\ decodes (y_dec_bits Y) (i_val j) s) /\ got (y_dec_spki Y) alt_spki l None ki tt /\
  rest = filter keep l.
Proof.
  intros L Y l must a ki s rest. unfold get_catalyst_info_vals. split.
  - intro H. apply bind_inv in H as (f & F & H). apply scan_sound in F as (R & A & K & S & F). cbn [f_alg f_key f_sig f_rest app] in *.
    destruct (f_alg f) as [a'|], (f_sig f) as [s'|]; try discriminate H; [|destruct must; discriminate H]. inversion H; subst.
    split; [exact R|]. split; [now apply got_some in A|]. split; [now apply got_some in S|]. auto.
  - intros (R & A & S & K & ->). destruct (scan_total L Y l {| f_alg := None; f_key := None; f_sig := None; f_rest := [] |} R) as (f & F).
    rewrite F. cbn [bind]. apply scan_sound in F as (_ & A' & K' & S' & F). cbn [f_alg f_key f_sig f_rest app] in *.
    apply (got_some _ _ _ _ _ _ tt) in A, S.
    rewrite (got_fun _ _ _ _ _ _ _ _ A' A), (got_fun _ _ _ _ _ _ _ _ S' S), (got_fun _ _ _ _ _ _ _ _ K' K), F. reflexivity.
Qed.
Lemma vals_none : forall L Y l must, get_catalyst_info_vals L Y l must = Ok None <->
  readable L Y l /\ none_of alt_alg l /\ none_of alt_sig l /\ must = false.
Proof.
  intros L Y l must. unfold get_catalyst_info_vals. split.
  - intro H. apply bind_inv in H as (f & F & H). apply scan_sound in F as (R & A & K & S & F). cbn [f_alg f_key f_sig f_rest app] in *.
    destruct (f_alg f) as [a'|], (f_sig f) as [s'|]; try discriminate H. destruct must; [discriminate H|].
    apply got_none in A, S. auto.
  - intros (R & A & S & ->). destruct (scan_total L Y l {| f_alg := None; f_key := None; f_sig := None; f_rest := [] |} R) as (f & F).
    rewrite F. cbn [bind]. apply scan_sound in F as (_ & A' & K' & S' & F). cbn [f_alg f_key f_sig f_rest app] in *.
    rewrite <- (got_none algid unit (l_dec_alg L) alt_alg l tt) in A. rewrite <- (got_none bytes unit (y_dec_bits Y) alt_sig l tt) in S.
    rewrite (got_fun _ _ _ _ _ _ _ _ A' A), (got_fun _ _ _ _ _ _ _ _ S' S). reflexivity.
Qed.

(** ** Composite identifiers *)

Lemma comp_has : forall a, has (a_oid a) COMPOSITE_SIG_OID_TO_NAME = true <-> is_composite a.
Proof.
  intro a. rewrite has_In. unfold is_composite, composites, COMPOSITE_SIG_OID_TO_NAME. rewrite map_map. split; intro H; exact H.
Qed.
Lemma comp_dec : forall a, is_composite a \/ ~ is_composite a.
Proof.
  intro a. destruct (has (a_oid a) COMPOSITE_SIG_OID_TO_NAME) eqn:E; [left; now apply comp_has|right].
  intro H. apply comp_has in H. congruence.
Qed.
Lemma not_comp_has : forall a, ~ is_composite a -> has (a_oid a) COMPOSITE_SIG_OID_TO_NAME = false.
Proof. intros a N. destruct (has (a_oid a) COMPOSITE_SIG_OID_TO_NAME) eqn:E; [|reflexivity]. apply comp_has in E. contradiction. Qed.
Lemma valid_exact : forall L k a data v, wf_kind (k_kind k) -> (verify_signature_with_alg_id L k a data v = Ok tt <-> sig_valid L a k data v).
Proof. intros. now apply sig_exact. Qed.
Lemma valid_sign_kind : forall L k a data v, sig_valid L a k data v -> is_sign_kind (k_kind k) = true.
Proof. intros L k a data v (s & H & _). inversion H; reflexivity. Qed.

Lemma trad_kinds : forall k, is_comp_trad_kind k = true <-> In k [KEc; KEd25519; KEd448; KRsa].
Proof.
  intro k; split.
  - destruct k; intro H; try discriminate H; cbn; tauto.
  - cbn. intros [<-|[<-|[<-|[<-|[]]]]]; reflexivity.
Qed.
Lemma pair_exact : forall L Y data v a k1 k2, is_composite a -> (forall x y k, y_combine Y x y = Ok k -> wf_kind (k_kind k)) ->
  (verify_composite_with_keys L Y data v a k1 k2 = Ok tt <->
   exists p t n k, ((exists x, k_kind k1 = KPq x) /\ p = k1 /\ t = k2 \/ (forall x, k_kind k1 <> KPq x) /\ p = k2 /\ t = k1) /\
     k_kind p = KPq n /\ In n ML_DSA_NAMES /\ In (k_kind t) [KEc; KEd25519; KEd448; KRsa] /\ y_combine Y p t = Ok k /\
     sig_valid L a k data v).
Proof.
  intros L Y data v a k1 k2 C W. unfold verify_composite_with_keys. cbv zeta. rewrite (proj2 (comp_has a) C).
  set (p0 := if is_pq_kind (k_kind k1) then k1 else k2). set (t0 := if is_pq_kind (k_kind k1) then k2 else k1).
  assert (PT : (exists x, k_kind k1 = KPq x) /\ p0 = k1 /\ t0 = k2 \/ (forall x, k_kind k1 <> KPq x) /\ p0 = k2 /\ t0 = k1).
  { unfold p0, t0. destruct (k_kind k1); cbn [is_pq_kind]; try (right; repeat split; intro; discriminate). left. split; [eauto|auto]. }
  split.
  - intro H. apply bind_inv in H as ([] & G1 & H). apply bind_inv in H as ([] & G2 & H). apply bind_inv in H as (k & K & H).
    apply guard_true in G1, G2. exists p0, t0. unfold is_mldsa_kind in G1. destruct (k_kind p0) eqn:E; try discriminate G1.
    apply str_mem_In in G1. exists name, k. split; [exact PT|]. split; [reflexivity|]. split; [exact G1|]. split; [now apply trad_kinds|].
    split; [exact K|]. apply valid_exact in H; eauto.
  - intros (p & t & n & k & D & E & I & T & K & V).
    assert (EP : p = p0 /\ t = t0).
    { destruct D as [((x & X) & -> & ->)|(X & -> & ->)], PT as [((y & U) & P & Q)|(U & P & Q)]; try (split; congruence).
      }
    destruct EP as (-> & ->). unfold is_mldsa_kind. rewrite E, (proj2 (str_mem_In _ _) I), (proj2 (trad_kinds _) T). cbn [guard bind].
    rewrite K. cbn [bind]. apply valid_exact; eauto.
Qed.
Lemma hybrid_cert_exact : forall L Y data v a c others, is_composite a ->
  (forall k, c_pub c = Ok k -> wf_kind (k_kind k)) -> (forall x y k, y_combine Y x y = Ok k -> wf_kind (k_kind k)) ->
  (verify_composite_hybrid_cert L Y data v a c others = Ok tt <-> exists k, hybrid_key Y c others k /\ sig_valid L a k data v).
Proof.
  intros L Y data v a c others C WC WY. unfold verify_composite_hybrid_cert. rewrite (proj2 (comp_has a) C). cbn [guard bind]. split.
  - intro H. destruct (y_class Y c) eqn:E; try discriminate H.
    + apply bind_inv in H as ([k1|] & A & H); [|discriminate H]. apply bind_inv in H as (k2 & B & H).
      apply pair_exact in H; auto. destruct H as (p & t & n & k & D & P & I & T & K & V). exists k. split; [|exact V]. eapply HK_pair; eauto.
    + apply bind_inv in H as (k & K & H). apply bind_inv in H as ([] & _ & H). exists k. split; [now apply HK_comp|].
      apply valid_exact in H; auto.
  - intros (k & H & V). inversion H; subst.
    + rewrite H0, H1. cbn [bind]. rewrite (valid_sign_kind _ _ _ _ _ V). cbn [guard bind]. apply valid_exact; auto.
    + rewrite H0, H1, H2. cbn [bind]. apply pair_exact; auto. exists p, t, n, k. auto 10.
Qed.

(** ** Verifying *)

Lemma without_alt_eq : forall m, without_alt m = set_header m (set_infos (m_header m) (filter keep (h_info (m_header m)))).
Proof. reflexivity. Qed.
Definition comp_key_of (public : option key) : bool := match public with Some k => is_comp (k_kind k) | None => false end.
Lemma comp_public_dec : forall public, comp_key_of public = true <-> comp_public public.
Proof.
  intros [k|]; unfold comp_public; cbn [comp_key_of]; split.
  - eauto.
  - intros (x & E & H). now inversion E; subst.
  - discriminate.
  - intros (x & E & _). discriminate E.
Qed.
Theorem hybrid_exact : forall L Y m public must, keys_wf Y m public ->
  (fst (verify_hybrid L Y m public must) = Ok tt <->
   exists a v data k, alg_is m a /\ m_prot m = Some v /\ part_of L m data /\ verifier Y m public a k /\ sig_valid L a k data v /\
     (~ is_composite a -> alt_condition L Y m must)).
Proof.
  intros L Y m public must W. unfold verify_hybrid, alg_is. split.
  - destruct (h_alg (m_header m)) as [a|] eqn:HA; [|discriminate]. destruct (m_prot m) as [v|] eqn:HP; [|discriminate].
    intro H.
    assert (H' : fst (match protected_part L m with
          | Err e => (Err e, m)
          | Ok data =>
              if has (a_oid a) COMPOSITE_SIG_OID_TO_NAME then
                match public with
                | Some {| k_kind := KComp x y; k_id := n |} =>
                    (verify_signature_with_alg_id L {| k_kind := KComp x y; k_id := n |} a data v, m)
                | _ =>
                    match m_certs m with
                    | [] => (Err EIndexError, m)
                    | c :: others => (verify_composite_hybrid_cert L Y data v a c others, m)
                    end
                end
              else
                match m_certs m with
                | [] => (Err EIndexError, m)
                | c :: others =>
                    verify_with_cert L Y m a v data must c others
                end
          end) = Ok tt) by (destruct (m_certs m), public; try exact H; discriminate H).
    clear H; rename H' into H. destruct (protected_part L m) as [data|] eqn:D; [|discriminate H]. apply protected_part_ok in D.
    destruct (has (a_oid a) COMPOSITE_SIG_OID_TO_NAME) eqn:HC.
    + apply comp_has in HC. exists a, v, data.
      destruct (comp_key_of public) eqn:CK.
      * destruct public as [[kk n]|]; [|discriminate CK]. destruct kk; try discriminate CK. cbn [fst] in H.
        eexists. split; [reflexivity|]. split; [reflexivity|]. split; [exact D|]. split; [apply VK_public; auto|].
        split; [apply valid_exact in H; [exact H|exact I]|]. intro N; contradiction.
      * destruct (m_certs m) as [|c others] eqn:MC.
        { exfalso. destruct public as [[kk n]|]; [destruct kk|]; try discriminate CK; discriminate H. }
        assert (H' : verify_composite_hybrid_cert L Y data v a c others = Ok tt)
          by (destruct public as [[kk n]|]; [destruct kk|]; try discriminate CK; exact H).
        apply hybrid_cert_exact in H'; [|exact HC| |exact (kw_combine _ _ _ W)].
        2: { intros k E. apply (kw_cert _ _ _ W c); [rewrite MC; now left|exact E]. }
        destruct H' as (k & HK & V). exists k. split; [reflexivity|]. split; [reflexivity|]. split; [exact D|].
        split; [apply (VK_hybrid _ _ _ _ c others); auto; intro X; apply comp_public_dec in X; congruence|].
        split; [exact V|]. intro N; contradiction.
    + assert (NC : ~ is_composite a) by (intro X; apply comp_has in X; congruence).
      destruct (m_certs m) as [|c others] eqn:MC; [discriminate H|].
      unfold verify_with_cert in H. destruct (let! k := c_pub c in _) as [r|] eqn:E; [|discriminate H].
      apply bind_inv in E as (k & K & E). apply bind_inv in E as ([] & _ & E). apply bind_inv in E as ([] & V & E).
      apply valid_exact in V; [|apply (kw_cert _ _ _ W c); [rewrite MC; now left|exact K]].
      exists a, v, data, k. split; [reflexivity|]. split; [reflexivity|]. split; [exact D|]. split; [now apply (VK_cert _ _ _ _ c others)|].
      split; [exact V|]. intros _. destruct r as [[[[aa ki] s] rest]|].
      * apply vals_exact in E as (R & (i & I1 & I2) & (j & J1 & J2) & G & ->). split; [exact R|]. right. exists c, others. split; [exact MC|].
        destruct (match ki with Some r => let! k := r in Ok (Some k) | None => y_alt Y c others end) as [ok|] eqn:EK; [|discriminate H].
        cbv zeta in H. cbn [fst] in H. apply bind_inv in H as (d2 & D2 & H). destruct ok as [k2|]; [|discriminate H].
        apply bind_inv in H as ([] & _ & H).
        assert (V2 : verify_signature_with_alg_id L k2 aa d2 s = Ok tt)
          by (destruct (verify_signature_with_alg_id L k2 aa d2 s) as [[]|[]]; try discriminate H; reflexivity).
        assert (AK : alt_key Y c others (h_info (m_header m)) k2 /\ wf_kind (k_kind k2)).
        { destruct ki as [[k'|]|]; cbn [bind] in EK; try discriminate EK.
          - inversion EK; subst k'. apply got_some in G as (x & X1 & X2). split; [now apply (AK_message _ _ _ _ x)|].
            destruct X2 as (b & r & _ & DB). exact (kw_spki _ _ _ W _ _ _ DB).
          - apply got_none in G. split; [now apply AK_cert|]. exact (kw_alt _ _ _ W _ _ _ EK). }
        destruct AK as (AK & W2). apply valid_exact in V2; [|exact W2]. exists i, j, aa, s, k2, d2.
        do 5 (split; [assumption|]). split; [now apply protected_part_ok|exact V2].
      * apply vals_none in E as (R & A & S & M). split; [exact R|]. left. split; [split; assumption|exact M].
  - intros (a & v & data & k & HA & HP & D & VK & V & AC). rewrite HA, HP. apply protected_part_ok in D. rewrite D. inversion VK; subst.
    + rewrite (proj2 (comp_has a) H). destruct k as [kk n]. cbn [k_kind] in *. destruct kk; try discriminate H1.
      destruct (m_certs m); cbn [fst]; apply valid_exact; auto; exact I.
    + rewrite (proj2 (comp_has a) H). rewrite H1. assert (X : verify_composite_hybrid_cert L Y data v a c others = Ok tt).
      { apply hybrid_cert_exact; [exact H| |exact (kw_combine _ _ _ W)|eauto]. intros k' E. apply (kw_cert _ _ _ W c); [rewrite H1; now left|exact E]. }
      destruct public as [[kk n]|]; [|exact X]. destruct kk; try exact X. destruct H0. unfold comp_public. eauto.
    + rewrite (not_comp_has _ H), H0.
      assert (X : fst (verify_with_cert L Y m a v data must c others) = Ok tt); [|destruct public; exact X].
      unfold verify_with_cert.
      rewrite H1. cbn [bind]. rewrite (valid_sign_kind _ _ _ _ _ V). cbn [guard bind].
      assert (V' := V). apply valid_exact in V'; [|apply (kw_cert _ _ _ W c); [rewrite H0; now left|exact H1]]. rewrite V'. cbn [bind].
      destruct (AC H) as (R & [((A & S) & ->)|(c' & o' & EC & AS)]).
      * rewrite (proj2 (vals_none L Y _ false)) by auto. reflexivity.
      * assert (c' = c /\ o' = others) by (split; congruence). destruct H2 as (-> & ->).
        destruct AS as (i & j & aa & s & k2 & d2 & I1 & I2 & J1 & J2 & AK & P2 & V2).
        assert (KI : exists ki, got (y_dec_spki Y) alt_spki (h_info (m_header m)) None ki tt /\
           (match ki with Some r => let! k := r in Ok (Some k) | None => y_alt Y c others end) = Ok (Some k2) /\ wf_kind (k_kind k2)).
        { inversion AK; subst.
          - exists (Some (Ok k2)). split; [apply got_some; eauto|]. split; [reflexivity|]. destruct H3 as (b & r & _ & DB). exact (kw_spki _ _ _ W _ _ _ DB).
          - exists None. split; [now apply got_none|]. split; [assumption|]. exact (kw_alt _ _ _ W _ _ _ H3). }
        destruct KI as (ki & G & EK & W2).
        rewrite (proj2 (vals_exact L Y (h_info (m_header m)) must aa ki s (filter keep (h_info (m_header m))))) by (split; [exact R|split; [eauto|split; [eauto|auto]]]).
        rewrite EK. cbv zeta. cbn [fst]. apply protected_part_ok in P2. rewrite without_alt_eq in P2. rewrite P2. cbn [bind].
        rewrite (valid_sign_kind _ _ _ _ _ V2). cbn [guard bind]. apply valid_exact in V2; [|exact W2]. rewrite V2. reflexivity.
Qed.

(** The message object after a verification. *)
Theorem hybrid_object : forall L Y m public must,
  snd (verify_hybrid L Y m public must) = m \/ snd (verify_hybrid L Y m public must) = without_alt m.
Proof.
  intros L Y m public must. unfold verify_hybrid.
  destruct (h_alg (m_header m)) as [a|]; [|now left]. destruct (m_prot m) as [v|]; [|now left].
  assert (Q : forall d c others, snd (verify_with_cert L Y m a v d must c others) = m \/
    snd (verify_with_cert L Y m a v d must c others) = without_alt m).
  { intros d c others. unfold verify_with_cert. destruct (let! k := c_pub c in _) as [[[[[aa ki] s] rest]|]|] eqn:E; [|now left|now left].
    apply bind_inv in E as (k & _ & E). apply bind_inv in E as (u & _ & E). apply bind_inv in E as (u' & _ & E).
    apply vals_exact in E as (_ & _ & _ & _ & ->).
    destruct (match ki with Some r => let! k := r in Ok (Some k) | None => y_alt Y c others end); [now right|now left]. }
  destruct (m_certs m) as [|c others], public as [[kk n]|];
    try (now left);
    destruct (protected_part L m); try (now left); destruct (has (a_oid a) COMPOSITE_SIG_OID_TO_NAME);
    try (destruct kk; now left); try (now left); try apply Q.
Qed.
