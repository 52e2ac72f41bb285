(** Proofs about the weaknesses of hybrid protection and about original messages (C98 to C100). *)
From Coq Require Import String Ascii Lia.
From Verif Require Import Prelude PreludeFacts PyStr CompLoadModel HdrModel ProtTab ProtModel ProtSpec ProtMac ProtMacMsg ProtSig ProtKind.
From Verif Require Import ProtMatchSpec ProtHybModel ProtHybSpec ProtHybProofs ProtHybRound.
Open Scope string_scope.
Open Scope Z_scope.
Local Notation length := List.length.

(** ** The message object after an accepting verification *)

Theorem accepted_object : forall L Y m public must a, alg_is m a -> fst (verify_hybrid L Y m public must) = Ok tt ->
  (is_composite a -> snd (verify_hybrid L Y m public must) = m) /\
  (~ is_composite a -> snd (verify_hybrid L Y m public must) = without_alt m).
Proof.
  intros L Y m public must a A. unfold alg_is in A. unfold verify_hybrid. rewrite A. intro H. split; intro C.
  - rewrite (proj2 (comp_has a) C). destruct (m_prot m) as [v|]; [|reflexivity]. destruct (m_certs m), public as [[[] ?]|]; try reflexivity;
      destruct (protected_part L m); reflexivity.
  - rewrite (not_comp_has _ C) in *. destruct (m_prot m) as [v|]; [|discriminate H].
    assert (Q : forall d c others, fst (verify_with_cert L Y m a v d must c others) = Ok tt ->
      snd (verify_with_cert L Y m a v d must c others) = without_alt m).
    { intros d c others. unfold verify_with_cert. destruct (let! k := c_pub c in _) as [[[[[aa ki] s] rest]|]|] eqn:E; [| |discriminate].
      - destruct (match ki with Some r => let! k := r in Ok (Some k) | None => y_alt Y c others end); [|discriminate].
        cbv zeta. cbn [fst snd]. intros _. apply bind_inv in E as (? & _ & E). apply bind_inv in E as (? & _ & E). apply bind_inv in E as (? & _ & E).
        apply vals_exact in E as (_ & _ & _ & _ & ->). now rewrite without_alt_eq.
      - intros _. cbn [snd]. apply bind_inv in E as (? & _ & E). apply bind_inv in E as (? & _ & E). apply bind_inv in E as (? & _ & E).
        apply vals_none in E as (_ & _ & N & _). rewrite without_alt_eq, filter_none by exact N.
        destruct m as [[] ? ? ?]; reflexivity. }
    destruct (m_certs m) as [|c others]; destruct public; try discriminate H; destruct (protected_part L m) as [d|]; try discriminate H; now apply Q.
Qed.
Theorem verified_twice : forall L Y m public must public' must', keys_wf Y m public -> keys_wf Y (without_alt m) public' ->
  fst (verify_hybrid L Y m public must) = Ok tt -> snd (verify_hybrid L Y m public must) <> m ->
  fst (verify_hybrid L Y (snd (verify_hybrid L Y m public must)) public' must') <> Ok tt.
Proof.
  intros L Y m public must public' must' W W' H N H2.
  destruct (proj1 (hybrid_exact L Y m public must W) H) as (a & v & d & k & A & _ & _ & _ & _ & C).
  destruct (accepted_object _ _ _ _ _ _ A H) as (O1 & O2). destruct (comp_dec a) as [Q|Q]; [exact (N (O1 Q))|].
  rewrite (O2 Q) in *.
  assert (NS : none_of alt_sig (h_info (m_header (without_alt m)))).
  { cbn [without_alt set_header m_header set_infos h_info]. intros i I T. apply filter_In in I as (_ & I). rewrite T in I. discriminate I. }
  destruct (proj1 (hybrid_exact L Y (without_alt m) public' must' W') H2) as (a' & v' & d' & k' & A' & _ & _ & _ & _ & C').
  assert (a' = a) by (unfold alg_is in *; cbn in A'; congruence). subst a'.
  destruct (C' Q) as (_ & [((NA & _) & _)|(c & o & _ & i & j & aa & vv & kk & dd & _ & _ & LS & _)]).
  - destruct (C Q) as (_ & [((_ & NS') & _)|(c & o & _ & i & j & aa & vv & kk & dd & LA & _)]).
    + apply N. rewrite without_alt_eq, filter_none by exact NS'. destruct m as [[] ? ? ?]; reflexivity.
    + destruct (last_In _ _ _ LA) as (I & T). apply (NA i); [|exact T]. cbn [without_alt set_header m_header set_infos h_info].
      apply filter_In. split; [exact I|]. now rewrite T.
  - exact (last_none _ _ _ LS NS).
Qed.

(** ** Arguments without effect *)

Theorem key_unused : forall L Y m a p q must, alg_is m a -> ~ is_composite a -> m_certs m <> [] ->
  verify_hybrid L Y m p must = verify_hybrid L Y m q must.
Proof.
  intros L Y m a p q must A C N. unfold alg_is in A. unfold verify_hybrid. rewrite A, (not_comp_has _ C). destruct (m_prot m); [|reflexivity].
  destruct (m_certs m); [now destruct N|]. reflexivity.
Qed.
Theorem key_alone : forall L Y m a p must, alg_is m a -> ~ is_composite a -> m_certs m = [] -> fst (verify_hybrid L Y m p must) <> Ok tt.
Proof.
  intros L Y m a p must A C N. unfold alg_is in A. unfold verify_hybrid. rewrite A, (not_comp_has _ C). destruct (m_prot m); [|discriminate].
  rewrite N. destruct p; [|discriminate]. destruct (protected_part L m); discriminate.
Qed.
Theorem must_unused : forall L Y m a p, alg_is m a -> is_composite a -> verify_hybrid L Y m p true = verify_hybrid L Y m p false.
Proof.
  intros L Y m a p A C. unfold alg_is in A. unfold verify_hybrid. rewrite A, (proj2 (comp_has a) C). destruct (m_prot m); [|reflexivity].
  reflexivity.
Qed.

(** ** Catalyst protection *)

Theorem catalyst_accepted : forall L Y r1 r2 r3 m k x o m' c others public must, lib_ok L -> hyb_ok Y ->
  protect_hybrid L Y r1 r2 r3 m (Some k) "catalyst" (Some x) o = Ok m' -> wf_kind (k_kind k) -> wf_kind (k_kind x) ->
  single_key (k_kind k) = true -> signing_key (k_kind x) = true -> keys_wf Y m' public -> no_hybrid (h_info (m_header m)) ->
  m_certs m' = (c :: others)%list -> c_pub c = Ok k -> (yo_include o = true \/ y_alt Y c others = Ok (Some x)) -> yo_bad o = false ->
  fst (verify_hybrid L Y m' public must) = Ok tt /\ fst (verify_hybrid L Y (transport L m') public must) = Ok tt.
Proof.
  intros L Y r1 r2 r3 m k x o m' c others public must HL HY H WK WX SK SX KW NH MC CP INC NB.
  destruct (catalyst_roundtrip L Y r1 r2 r3 m k x o m' c others public must HL HY H WK WX SK SX KW NH MC CP INC) as (s & v & v2 & data & LS & B & _ & V1 & V2).
  rewrite NB in B. inversion B; subst. pose proof (pm_sig _ (lk_prim _ HL) _ _ _ _ _ LS) as Q. split; [now apply V1|now apply V2].
Qed.
(** The primary signature alone verifies, whatever the alternative one is. *)
Theorem catalyst_primary : forall L Y r1 r2 r3 r4 m k x o m' w, lib_ok L ->
  protect_hybrid L Y r1 r2 r3 m (Some k) "catalyst" (Some x) o = Ok m' -> wf_kind (k_kind k) -> single_key (k_kind k) = true ->
  v_public w = Some k -> v_lw w = false ->
  verify_pkimessage_protection L r4 m' w = Ok tt /\ verify_pkimessage_protection L r4 (transport L m') w = Ok tt.
Proof.
  intros L Y r1 r2 r3 r4 m k x o m' w HL H WK SK PK LW.
  destruct (catalyst_inv _ _ _ _ _ _ _ _ _ _ H) as (aa & a & pub & d1 & s & s2 & d2 & v & h & PA & PA2 & PP & HI & D1 & SG & S2 & MH & A & _ & D2 & V & MP).
  assert (SK' : signing_key (k_kind k) = true) by (unfold signing_key; now rewrite SK).
  destruct (fits L r1 r3 k _ _ a d2 v (lk_codec _ HL) WK SK' PA2 V) as (sk & K1 & K2 & _ & KS & KC).
  pose proof (pm_sig _ (lk_prim _ HL) _ _ _ _ _ KS) as KV.
  assert (NC : is_comp (k_kind k) = false) by (destruct (k_kind k); try discriminate SK; reflexivity).
  pose proof (scheme_not_secret _ _ _ _ K1 NC) as NS. pose proof (transport_part _ _ _ (lk_part _ HL) D2) as DT.
  assert (AT : h_alg (m_header (transport L m')) = Some (wire_alg L a))
    by (unfold alg_is in A; cbn [transport set_header m_header wire_header h_alg]; now rewrite A).
  split.
  - apply (sig_decides L r4 m' w a v k d2 WK A NS MP PK D2). split; [rewrite LW; discriminate|]. eauto.
  - apply (sig_decides L r4 (transport L m') w (wire_alg L a) v k d2 WK AT NS MP PK DT). split; [rewrite LW; discriminate|]. eauto.
Qed.
(** With a composite primary key only that key counts. *)
Theorem catalyst_composite : forall L Y r1 r2 r3 m k x o m' public must, lib_ok L ->
  protect_hybrid L Y r1 r2 r3 m (Some k) "catalyst" (Some x) o = Ok m' -> wf_kind (k_kind k) -> is_comp (k_kind k) = true ->
  public = Some k -> keys_wf Y m' public ->
  fst (verify_hybrid L Y m' public must) = Ok tt /\ fst (verify_hybrid L Y (transport L m') public must) = Ok tt.
Proof.
  intros L Y r1 r2 r3 m k x o m' public must HL H WK IC PK KW.
  destruct (catalyst_inv _ _ _ _ _ _ _ _ _ _ H) as (aa & a & pub & d1 & s & s2 & d2 & v & h & PA & PA2 & PP & HI & D1 & SG & S2 & MH & A & _ & D2 & V & MP).
  assert (SK' : signing_key (k_kind k) = true) by (unfold signing_key; rewrite IC; apply orb_true_r).
  destruct (fits L r1 r3 k _ _ a d2 v (lk_codec _ HL) WK SK' PA2 V) as (sk & K1 & K2 & _ & KS & KC).
  pose proof (pm_sig _ (lk_prim _ HL) _ _ _ _ _ KS) as KV. apply KC in IC as CA. split.
  - apply (hybrid_exact L Y m' public must KW). exists a, v, d2, k. do 3 (split; [assumption|]). split; [now apply VK_public|].
    split; [exists sk; auto|]. intro N; contradiction.
  - apply (hybrid_exact L Y (transport L m') public must (keys_wf_wire _ _ _ _ KW)). exists (wire_alg L a), v, d2, k.
    split; [unfold alg_is in *; cbn [transport set_header m_header wire_header h_alg]; now rewrite A|]. split; [exact MP|].
    split; [apply transport_part; [exact (lk_part _ HL)|exact D2]|]. split; [now apply VK_public|].
    split; [exists sk; auto|]. intro N; contradiction.
Qed.
(** A certificate without a directory of certificates is not sent. *)
Theorem cert_not_sent : forall L Y r1 r2 r3 m k prot alt o m', protect_hybrid L Y r1 r2 r3 m (Some k) prot alt o = Ok m' ->
  yo_dir o = [] -> m_certs m' = m_certs m.
Proof.
  intros L Y r1 r2 r3 m k prot alt o m' H ND. unfold protect_hybrid in H. cbv zeta in H. apply bind_inv in H as ([] & _ & H).
  apply bind_inv in H as (m1 & P & H).
  assert (E : m_certs m1 = m_certs m).
  { unfold patch_extra_certs in P. rewrite ND in P. destruct (yo_cert o); [destruct (yo_exclude o)|]; inversion P; reflexivity. }
  assert (Q : forall K, sig_protection L Y r1 r2 K m1 o = Ok m' -> m_certs m' = m_certs m).
  { intros K S. unfold sig_protection in S. cbv zeta in S. repeat (apply bind_inv in S as (? & _ & S)). inversion S. exact E. }
  destruct (String.eqb prot "signature"); [eauto|]. destruct (String.eqb prot "composite").
  - apply bind_inv in H as (k' & _ & H). eauto.
  - destruct alt as [x|]; [|discriminate H]. unfold catalyst_protection in H. cbv zeta in H.
    repeat (apply bind_inv in H as (? & _ & H)). inversion H. exact E.
Qed.
(** Protecting a message again leaves the alternative signature without its data. *)
Theorem catalyst_again : forall L Y r1 r2 r3 m k x o m' c others public must, lib_ok L -> hyb_ok Y ->
  protect_hybrid L Y r1 r2 r3 m (Some k) "catalyst" (Some x) o = Ok m' -> wf_kind (k_kind k) -> wf_kind (k_kind x) ->
  single_key (k_kind k) = true -> signing_key (k_kind x) = true -> keys_wf Y m' public -> wf_header L (m_header m') = true ->
  (exists i, In i (h_info (m_header m)) /\ i_type i = alt_sig) -> yo_bad o = false -> yo_include o = true ->
  m_certs m' = (c :: others)%list -> fst (verify_hybrid L Y m' public must) = Ok tt ->
  exists s v data data', l_sign L r2 s x data = Ok v /\ data' <> data /\ l_verify L s x v data' = Ok tt.
Proof.
  intros L Y r1 r2 r3 m k x o m' c others public must HL HY H WK WX SK SX KW WH (e & EI & ET) NB INC MC VV.
  destruct (catalyst_inv _ _ _ _ _ _ _ _ _ _ H) as (aa & a & pub & d1 & s & s2 & d2 & v & h & PA & PK & PP & HI & D1 & SG & S2 & MH & A & _ & D2 & V & MP).
  assert (SK' : signing_key (k_kind k) = true) by (unfold signing_key; now rewrite SK).
  destruct (fits L r1 r2 x _ _ aa d1 s (lk_codec _ HL) WX SX PA SG) as (sx & _ & X2 & X3 & XS & _).
  destruct (fits L r1 r3 k _ _ a d2 v (lk_codec _ HL) WK SK' PK V) as (sk & K1 & K2 & _ & KS & KC).
  assert (NC : ~ is_composite a). { intro Q. apply KC in Q. destruct (k_kind k); discriminate. }
  rewrite NB in S2. inversion S2; subst s2. rewrite INC in PP. destruct PP as (b & B & ->).
  destruct (proj1 (hybrid_exact L Y m' public must KW) VV) as (a' & v' & d' & k' & A' & _ & _ & _ & _ & C).
  assert (a' = a) by (unfold alg_is in *; congruence). subst a'.
  assert (HI' : h_info (m_header m') = ((h_info (m_header m) ++ [alg_entry L aa; key_entry b]) ++ [sig_entry Y s])%list) by (rewrite MH; cbn [set_infos h_info]; now rewrite HI).
  assert (LA : last_entry alt_alg (h_info (m_header m')) (alg_entry L aa)).
  { exists (h_info (m_header m)), [key_entry b; sig_entry Y s]. rewrite HI', <- app_assoc. split; [reflexivity|]. split; [reflexivity|].
    intros j [<-|[<-|[]]]; discriminate. }
  assert (LK : last_entry alt_spki (h_info (m_header m')) (key_entry b)).
  { exists (h_info (m_header m) ++ [alg_entry L aa])%list, [sig_entry Y s]. rewrite HI', <- !app_assoc. split; [reflexivity|]. split; [reflexivity|].
    intros j [<-|[]]; discriminate. }
  assert (LS : last_entry alt_sig (h_info (m_header m')) (sig_entry Y s)).
  { exists (h_info (m_header m) ++ [alg_entry L aa; key_entry b])%list, []. rewrite HI'. split; [reflexivity|]. split; [reflexivity|intros j []]. }
  destruct (C NC) as (_ & [((NN & _) & _)|(c' & o' & MC' & i & j & aa' & vv & kk & dd & LA' & DA' & LS' & DS' & K' & D' & s' & SS & VS)]).
  { destruct (last_none _ _ _ LA NN). }
  rewrite (last_fun _ _ _ _ LA' LA) in DA'. rewrite (last_fun _ _ _ _ LS' LS) in DS'.
  pose proof (decodes_raw _ _ _ _ _ (ck_alg _ (lk_codec _ HL) aa X3)) as DDA. pose proof (decodes_raw _ _ _ _ _ (hk_bits _ HY s)) as DDS.
  pose proof (decodes_fun _ _ _ _ _ DA' DDA). pose proof (decodes_fun _ _ _ _ _ DS' DDS). subst aa' vv.
  inversion K' as [ik k0 LK' DK|k0 NE YE]; subst k0; [|destruct (last_none _ _ _ LK NE)].
  rewrite (last_fun _ _ _ _ LK' LK) in DK. pose proof (decodes_raw _ _ _ _ _ (hk_spki _ HY _ _ B)) as DKB.
  pose proof (decodes_fun _ _ _ _ _ DK DKB) as E. assert (kk = x) by congruence. subst kk. clear E.
  rewrite (scheme_fun _ _ _ _ _ SS X2) in VS. exists sx, s, d1, dd. split; [exact XS|]. split; [|exact VS].
  intros ->. destruct D1 as (b1 & B1 & P1). destruct D' as (b2 & B2 & P2). cbn [set_header m_header m_body] in B1, P1. rewrite without_alt_eq in B2, P2. cbn [set_header m_header m_body] in B2, P2.
  assert (W1 : wf_header L h = true).
  { rewrite MH in WH. unfold wf_header in *. cbn [set_infos h_alg h_info] in WH. apply andb_true_iff in WH as (Q1 & Q2). rewrite Q1.
    rewrite forallb_app in Q2. apply andb_true_iff in Q2 as (Q2 & _). now rewrite Q2. }
  assert (W2 : wf_header L (set_infos (m_header m') (filter keep (h_info (m_header m')))) = true).
  { unfold wf_header in *. cbn [set_infos h_alg h_info]. apply andb_true_iff in WH as (Q1 & Q2). rewrite Q1. cbn [andb].
    apply forallb_forall. intros z Z. apply filter_In in Z as (Z & _). exact (proj1 (forallb_forall _ _) Q2 z Z). }
  destruct (pt_inj _ (lk_part _ HL) _ _ _ _ _ W1 W2 P1 P2) as (E & _).
  apply (f_equal h_info) in E. cbn [wire_header set_infos h_info] in E.
  assert (I1 : In (wire_info L e) (List.map (wire_info L) (h_info h))).
  { apply in_map. rewrite HI. apply in_or_app. now left. }
  rewrite E in I1. apply in_map_iff in I1 as (z & Q & I1). apply filter_In in I1 as (_ & I1).
  apply (f_equal i_type) in Q. cbn [wire_info i_type] in Q. unfold keep in I1. rewrite Q, ET in I1. discriminate I1.
Qed.

(** ** Original messages *)

Lemma first_value_exact : forall t l p, first_value t l = Some p <-> exists i, first_entry t l i /\ i_val i = p.
Proof.
  intros t l p; split.
  - induction l as [|i l IH]; [discriminate|]. cbn [first_value]. destruct (String.eqb (i_type i) t) eqn:E.
    + intro H. inversion H; subst. apply String.eqb_eq in E. exists i. split; [|reflexivity]. exists [], l. split; [reflexivity|]. split; [exact E|intros j []].
    + intro H. destruct (IH H) as (j & (l1 & l2 & -> & T & N) & V). apply String.eqb_neq in E. exists j. split; [|exact V].
      exists (i :: l1), l2. split; [reflexivity|]. split; [exact T|]. intros z [<-|Z]; auto.
  - intros (i & (l1 & l2 & -> & T & N) & <-). induction l1 as [|j l1 IH]; cbn [app first_value].
    + now rewrite T, String.eqb_refl.
    + destruct (String.eqb (i_type j) t) eqn:E; [apply String.eqb_eq in E; destruct (N j (or_introl eq_refl) E)|].
      apply IH. intros z Z. apply N. now right.
Qed.
Lemma first_value_none : forall t l, first_value t l = None <-> none_of t l.
Proof.
  intros t l; split.
  - induction l as [|i l IH]; [intros _ j []|]. cbn [first_value]. destruct (String.eqb (i_type i) t) eqn:E; [discriminate|].
    intro H. apply none_cons. split; [now apply String.eqb_neq|auto].
  - intro N. destruct (first_value t l) eqn:E; [|reflexivity]. apply first_value_exact in E as (i & (l1 & l2 & -> & T & _) & _).
    exfalso. refine (N i _ T). apply in_or_app. right. now left.
Qed.
Lemma verify_all_exact : forall L rnd pw l, verify_all L rnd pw l = Ok tt <-> Forall (verifies L rnd pw) l.
Proof.
  intros L rnd pw l. induction l as [|m l IH]; cbn [verify_all]; [split; [constructor|reflexivity]|]. split.
  - intro H. unfold verifies at 1. destruct (verify_pkimessage_protection L rnd m _) as [[]|[]] eqn:E; try discriminate H.
    constructor; [exact E|now apply IH].
  - intro H. inversion H as [|? ? V F]; subst. unfold verifies in V. rewrite V. now apply IH.
Qed.
Theorem orig_exact : forall L rnd dec m must pw, validate_orig L rnd dec m must pw = Ok tt <->
  (none_of orig_type (h_info (m_header m)) /\ must = false) \/
  exists i b l, first_entry orig_type (h_info (m_header m)) i /\ (i_val i = PRaw b \/ i_val i = POctets b) /\ dec b = Some (l, []) /\
    Forall (verifies L rnd pw) l.
Proof.
  intros L rnd dec m must pw. unfold validate_orig. split.
  - destruct (first_value orig_type (h_info (m_header m))) as [p|] eqn:E.
    + apply first_value_exact in E as (i & F & V). intro H. right. exists i.
      destruct p; try discriminate H; destruct (dec b) as [[l [|z r]]|] eqn:D; try discriminate H; apply verify_all_exact in H; exists b, l; auto.
    + apply first_value_none in E. destruct must; [discriminate|]. auto.
  - intros [(N & ->)|(i & b & l & F & V & D & A)].
    + apply first_value_none in N. now rewrite N.
    + assert (E : first_value orig_type (h_info (m_header m)) = Some (i_val i)) by (apply first_value_exact; eauto).
      rewrite E. apply verify_all_exact in A. destruct V as [V|V]; rewrite V, D; exact A.
Qed.
(** What is raised for a message that does not verify. *)
Definition failure (e : exn) : exn :=
  match e with EInvalidSignature | EInvalidAltSignature | EBadSigAlgID => EBadMessageCheck | e => e end.
Lemma verify_all_fails : forall L rnd pw l1 x l2 e, Forall (verifies L rnd pw) l1 ->
  verify_pkimessage_protection L rnd x {| v_key := None; v_password := pw; v_public := None; v_ss := None; v_lw := false |} = Err e ->
  verify_all L rnd pw (l1 ++ x :: l2)%list = Err (failure e).
Proof.
  intros L rnd pw l1 x l2 e F H. induction F as [|y l1 V F IH]; cbn [app verify_all].
  - rewrite H. destruct e; reflexivity.
  - unfold verifies in V. rewrite V. exact IH.
Qed.
Theorem orig_fails : forall L rnd dec m must pw i b l1 x l2 e, first_entry orig_type (h_info (m_header m)) i ->
  (i_val i = PRaw b \/ i_val i = POctets b) -> dec b = Some ((l1 ++ x :: l2)%list, []) -> Forall (verifies L rnd pw) l1 ->
  verify_pkimessage_protection L rnd x {| v_key := None; v_password := pw; v_public := None; v_ss := None; v_lw := false |} = Err e ->
  validate_orig L rnd dec m must pw = Err (failure e).
Proof.
  intros L rnd dec m must pw i b l1 x l2 e F V D A H. unfold validate_orig.
  assert (E : first_value orig_type (h_info (m_header m)) = Some (i_val i)) by (apply first_value_exact; eauto).
  rewrite E. destruct V as [V|V]; rewrite V, D; now apply verify_all_fails.
Qed.
Theorem orig_missing : forall L rnd dec m pw, none_of orig_type (h_info (m_header m)) ->
  validate_orig L rnd dec m true pw = Err EBadRequest /\ validate_orig L rnd dec m false pw = Ok tt.
Proof. intros L rnd dec m pw N. apply first_value_none in N. unfold validate_orig. rewrite N. auto. Qed.

(** ** Decimal numbers *)

Lemma decimal_step : forall q d l, 0 < q -> decimal q l -> 0 <= d < 10 -> decimal (10 * q + d) (l ++ [48 + d])%list.
Proof.
  intros q d l Q (F & V & N & H) D. split; [|split; [|split]].
  - apply Forall_app. split; [exact F|]. constructor; [lia|constructor].
  - unfold digits_value in *. rewrite fold_left_app, V. cbn [fold_left]. lia.
  - destruct l; discriminate.
  - intros r E. destruct l as [|x l]; [now destruct N|]. cbn [app] in E. inversion E; subst x. rewrite (H l eq_refl) in *.
    unfold digits_value in V. cbn [fold_left] in V. lia.
Qed.
Lemma dec_digits_spec : forall n i acc, 0 <= i -> (Z.to_nat i < n)%nat -> exists l, dec_digits n i acc = (l ++ acc)%list /\ decimal i l.
Proof.
  induction n as [|n IH]; intros i acc I L; [lia|]. cbn [dec_digits]. destruct (i <? 10) eqn:E.
  - apply Z.ltb_lt in E. exists [48 + i]. split; [reflexivity|]. split; [constructor; [lia|constructor]|].
    split; [unfold digits_value; cbn [fold_left]; lia|]. split; [discriminate|]. intros r H. now inversion H.
  - apply Z.ltb_ge in E. pose proof (Z.div_mod i 10 ltac:(lia)) as DM. pose proof (Z.mod_pos_bound i 10 ltac:(lia)) as MB.
    assert (Q : 0 < i / 10) by (apply Z.div_str_pos; lia).
    destruct (IH (i / 10) (48 + i mod 10 :: acc)%list) as (l & EL & D); [lia|lia|].
    exists (l ++ [48 + i mod 10])%list. split; [rewrite EL, <- app_assoc; reflexivity|].
    rewrite DM at 1. apply decimal_step; auto.
Qed.
Theorem dec_ascii_decimal : forall i, 0 <= i -> decimal i (dec_ascii i).
Proof.
  intros i I. unfold dec_ascii. destruct (dec_digits_spec (S (Z.to_nat i)) i [] I ltac:(lia)) as (l & E & D). rewrite app_nil_r in E. now rewrite E.
Qed.
