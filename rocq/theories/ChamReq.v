From Coq Require Import String Permutation.
From Verif Require Import Prelude HdrModel ProtMac ProtSig ChamModel ChamSpec ChamProofs.
Open Scope string_scope.
Open Scope Z_scope.
Open Scope list_scope.

(** ** Attributes *)

Fixpoint lastv (t : oid) (l : list attr) : option bytes :=
  match l with
  | [] => None
  | a :: r => match lastv t r with Some v => Some v | None => if String.eqb (a_type a) t then Some (a_val a) else None end
  end.

Lemma lastv_none t l : lastv t l = None <-> ~ In t (map a_type l).
Proof.
  induction l as [|a r IH]; cbn [lastv map In]; [tauto|].
  destruct (lastv t r) eqn:E.
  - split; [discriminate|]. intro H. assert (N : ~ In t (map a_type r)) by tauto. apply IH in N. discriminate N.
  - pose proof (proj1 IH eq_refl) as N. destruct (String.eqb (a_type a) t) eqn:S.
    + apply String.eqb_eq in S. split; [discriminate | intro H; exfalso; apply H; now left].
    + apply String.eqb_neq in S. tauto.
Qed.

Lemma lastv_iff t l v : lastv t l = Some v <-> last_value t l v.
Proof.
  unfold last_value. split.
  - revert v. induction l as [|a r IH]; cbn [lastv]; intros v H; [discriminate|]. destruct (lastv t r) as [w|] eqn:E.
    + destruct (IH v ltac:(congruence)) as (b & x & c & -> & R). exists (a :: b), x, c. split; [reflexivity | exact R].
    + destruct (String.eqb (a_type a) t) eqn:S; [|discriminate H]. injection H as <-. exists [], a, r. split; [reflexivity|].
      split; [now apply String.eqb_eq|]. split; [reflexivity | now apply lastv_none].
  - intros (b & a & c & -> & T & <- & N). induction b as [|x b IH]; cbn [app lastv].
    + rewrite (proj2 (lastv_none t c) N), T, String.eqb_refl. reflexivity.
    + now rewrite IH.
Qed.

Definition kept (l : list attr) : list attr := filter (fun a => negb (String.eqb (a_type a) REQSIG)) l.
Definition decodes (L : lib) (l : list attr) : Prop :=
  forall a, In a l ->
    (a_type a = REQ -> exists q, l_qdec L (a_val a) = Ok q) /\ (a_type a = REQSIG -> exists s, l_sdec L (a_val a) = Ok s).
Definition opt_of {A} (r : result A) : option A := match r with Ok x => Some x | Err _ => None end.

Lemma extract_dec L l k q s r : extract_attrs L l k q s = Ok r -> decodes L l.
Proof.
  revert k q s. induction l as [|a l IH]; intros k q s H; [intros x []|]. cbn [extract_attrs] in H.
  destruct (String.eqb (a_type a) REQ) eqn:E.
  - apply bind_inv in H as (y & D & H). apply String.eqb_eq in E. intros x [<- | X]; [|now apply (IH _ _ _ H)].
    split; [now exists y | intro Q; rewrite E in Q; discriminate Q].
  - apply String.eqb_neq in E. destruct (String.eqb (a_type a) REQSIG) eqn:E2.
    + apply bind_inv in H as (y & D & H). intros x [<- | X]; [|now apply (IH _ _ _ H)].
      split; [intro Q; now elim E | now exists y].
    + apply String.eqb_neq in E2. intros x [<- | X]; [|now apply (IH _ _ _ H)]. split; intro Q; [now elim E | now elim E2].
Qed.

Lemma extract_val L l k q s : decodes L l ->
  extract_attrs L l k q s =
  Ok (k ++ kept l, match lastv REQ l with Some v => opt_of (l_qdec L v) | None => q end,
      match lastv REQSIG l with Some v => opt_of (l_sdec L v) | None => s end).
Proof.
  revert k q s. induction l as [|a l IH]; intros k q s D.
  - unfold kept. cbn. now rewrite app_nil_r.
  - assert (D' : decodes L l) by (intros x X; apply D; now right). destruct (D a (or_introl eq_refl)) as [D1 D2].
    cbn [extract_attrs lastv]. unfold kept. cbn [filter]. fold (kept l).
    destruct (String.eqb (a_type a) REQ) eqn:E.
    + apply String.eqb_eq in E. destruct (D1 E) as (x & X). rewrite X. cbn [bind].
      rewrite (IH _ _ _ D'), E. change (String.eqb REQ REQSIG) with false. cbn [negb]. rewrite <- app_assoc. cbn [app].
      destruct (lastv REQ l), (lastv REQSIG l); try reflexivity; now rewrite X.
    + destruct (String.eqb (a_type a) REQSIG) eqn:E2.
      * pose proof E2 as E3. apply String.eqb_eq in E3. destruct (D2 E3) as (x & X). rewrite X. cbn [bind negb]. rewrite (IH _ _ _ D').
        destruct (lastv REQ l), (lastv REQSIG l); try reflexivity; now rewrite X.
      * cbn [negb]. rewrite (IH _ _ _ D'), <- app_assoc. cbn [app]. destruct (lastv REQ l), (lastv REQSIG l); reflexivity.
Qed.

(** ** Verification *)

Lemma verify_csr_exact L c : verify_csr L c = Ok tt <-> base_proven L c.
Proof.
  unfold verify_csr, base_proven. split.
  - intro H. apply bind_inv in H as (p & P & H). apply bind_inv in H as (u & U & H). exists p. split; [exact P|].
    split; [destruct (p_verify p); [reflexivity | discriminate U]|].
    destruct (l_verify L p (r_alg c) (l_info L (r_info c)) (r_sig c)) as [[]|e]; [reflexivity | destruct e; discriminate H].
  - intros (p & P & V & S). rewrite P. cbn [bind]. rewrite V. cbn [guard bind]. now rewrite S.
Qed.

Theorem verify_exact L c q : verify_paired_csr L c = Ok q <-> base_proven L c /\ attrs_decode L c /\ delta_proven L c q.
Proof.
  unfold verify_paired_csr, delta_proven, attrs_decode. split.
  - intro H. apply bind_inv in H as ([] & B & H). apply verify_csr_exact in B. split; [exact B|].
    apply bind_inv in H as ([[k oq] os] & X & H). pose proof (extract_dec _ _ _ _ _ _ X) as D. split; [exact D|].
    rewrite (extract_val _ _ _ _ _ D) in X. cbn [app] in X. injection X as <- XQ XS.
    destruct oq as [q'|]; [|discriminate H]. destruct os as [s|]; [|discriminate H].
    apply bind_inv in H as (p & P & H).
    destruct (lastv REQ (i_attrs (r_info c))) as [v|] eqn:LV; [|discriminate XQ].
    destruct (lastv REQSIG (i_attrs (r_info c))) as [w|] eqn:LW; [|discriminate XS].
    destruct (l_qdec L v) as [q''|] eqn:DV; [|discriminate XQ]. destruct (l_sdec L w) as [s'|] eqn:DW; [|discriminate XS].
    cbn [opt_of] in XQ, XS. injection XQ as ->. injection XS as ->.
    destruct (p_verify p) eqn:PV; cbn [guard bind] in H; [|discriminate H].
    fold (kept (i_attrs (r_info c))) in H. change (set_attrs (r_info c) (kept (i_attrs (r_info c)))) with (unsigned (r_info c)) in H.
    destruct (l_verify L p match q_alg q' with Some x => x | None => r_alg c end (l_info L (unsigned (r_info c))) s) as [[]|e] eqn:VE.
    + injection H as ->. exists v, w, s, p. split; [now apply lastv_iff|]. split; [exact DV|]. split; [now apply lastv_iff|].
      split; [exact DW|]. split; [exact P|]. split; [exact PV | exact VE].
    + destruct e; discriminate H.
  - intros (B & D & v & w & s & p & LV & DV & LW & DW & P & PV & VE). apply verify_csr_exact in B. rewrite B. cbn [bind].
    apply lastv_iff in LV. apply lastv_iff in LW. rewrite (extract_val _ _ _ _ _ D), LV, LW, DV, DW. cbn [bind opt_of app].
    rewrite P. cbn [bind]. rewrite PV. cbn [guard bind].
    change (set_attrs (r_info c) (kept (i_attrs (r_info c)))) with (unsigned (r_info c)). rewrite VE. reflexivity.
Qed.

(** ** Requests built *)

Lemma decodes_perm L l l' : Permutation l l' -> decodes L l -> decodes L l'.
Proof. intros P D a A. apply D. now apply (Permutation_in _ (Permutation_sym P)). Qed.

Lemma lastv_in t l v : lastv t l = Some v -> exists a, In a l /\ a_type a = t /\ a_val a = v.
Proof.
  intro H. apply lastv_iff in H as (b & a & c & -> & T & V & _). exists a. split; [|now split]. apply in_app_iff. right. now left.
Qed.

(** An attribute type that occurs once keeps its value through every reordering. *)
Lemma lastv_unique t l l' a : Permutation l l' -> In a l -> a_type a = t -> (forall b, In b l -> a_type b = t -> b = a) ->
  lastv t l' = Some (a_val a).
Proof.
  intros P A T U. destruct (lastv t l') as [v|] eqn:E.
  - apply lastv_in in E as (b & B & TB & <-). f_equal. f_equal. apply U; [|exact TB]. now apply (Permutation_in _ (Permutation_sym P)).
  - apply lastv_none in E. elim E. rewrite <- T. apply in_map. now apply (Permutation_in _ P).
Qed.

Lemma set_attrs_attrs i l : i_attrs (set_attrs i l) = l. Proof. reflexivity. Qed.
Lemma set_attrs_twice i l l' : set_attrs (set_attrs i l) l' = set_attrs i l'. Proof. reflexivity. Qed.

Lemma kept_perm l l' : Permutation l l' -> Permutation (kept l) (kept l').
Proof.
  intro P. unfold kept. induction P as [|x l l' P IH|x y l|l1 l2 l3 P1 IH1 P2 IH2]; cbn [filter].
  - constructor.
  - destruct (negb _); [now constructor | exact IH].
  - destruct (negb (String.eqb (a_type x) REQSIG)), (negb (String.eqb (a_type y) REQSIG)); try reflexivity. apply perm_swap.
  - now transitivity (kept l2).
Qed.

(** What a built request is, up to the order of its attributes. *)
Lemma build_csr_inv L bk dk su bx ds dx h pss bad c : build_paired_csr L bk dk su bx ds dx h pss bad = Ok c ->
  exists a0 s0 s1 ab, l_alg L dk h pss = Ok a0 /\ l_alg L bk h pss = Ok ab /\
    let q := {| q_subject := ds; q_spki := l_spki L (s_pub dk) false; q_exts := dx; q_alg := Some a0 |} in
    let own := match bx with Some l => [{| a_type := EXTREQ; a_val := l_xenc L l |}] | None => [] end in
    let i1 := {| i_version := 0; i_subject := su; i_spki := l_spki L (s_pub bk) pss;
                 i_attrs := own ++ [{| a_type := REQ; a_val := l_qenc L q |}] |} in
    l_sign L dk h pss (l_info L i1) = Ok s0 /\ (if bad then manipulate_first_byte s0 else Ok s0) = Ok s1 /\
    r_info c = set_attrs i1 ((own ++ [{| a_type := REQ; a_val := l_qenc L q |}]) ++ [{| a_type := REQSIG; a_val := l_senc L s1 |}]) /\
    r_alg c = ab /\ l_sign L bk h pss (l_info L (r_info c)) = Ok (r_sig c).
Proof.
  unfold build_paired_csr, prepare_delta_req. intro H. apply bind_inv in H as (q & Q & H). apply bind_inv in Q as (a0 & A0 & Q). injection Q as <-.
  apply bind_inv in H as (s0 & S0 & H). apply bind_inv in H as (s1 & S1 & H). apply bind_inv in H as (s & S & H).
  apply bind_inv in H as (ab & AB & H). injection H as <-. exists a0, s0, s1, ab. cbn [r_info r_alg r_sig i_attrs].
  repeat split; assumption.
Qed.

Lemma set_attrs_same i : set_attrs i (i_attrs i) = i. Proof. now destruct i. Qed.

Section Built.
  Context (L : lib) (bk dk : skey) (su : bytes) (bx : option (list ext)) (ds : option bytes) (dx : list ext)
          (h : option string) (pss bad : bool) (c c' : csr).
  Context (OK : cham_ok L) (VB : p_verify (s_pub bk) = true) (VD : p_verify (s_pub dk) = true)
          (H : build_paired_csr L bk dk su bx ds dx h pss bad = Ok c) (RC : received c c').

  Lemma built_facts : exists a0 s0 s1, l_alg L dk h pss = Ok a0 /\
    let q := {| q_subject := ds; q_spki := l_spki L (s_pub dk) false; q_exts := dx; q_alg := Some a0 |} in
    (if bad then manipulate_first_byte s0 else Ok s0) = Ok s1 /\
    l_sign L dk h pss (l_info L (unsigned (r_info c'))) = Ok s0 /\
    base_proven L c' /\ decodes L (i_attrs (r_info c')) /\
    lastv REQ (i_attrs (r_info c')) = Some (l_qenc L q) /\ lastv REQSIG (i_attrs (r_info c')) = Some (l_senc L s1).
  Proof.
    destruct (build_csr_inv _ _ _ _ _ _ _ _ _ _ _ H) as (a0 & s0 & s1 & ab & A0 & AB & S0 & S1 & I & A & S). cbv zeta in S0, I.
    set (q := {| q_subject := ds; q_spki := l_spki L (s_pub dk) false; q_exts := dx; q_alg := Some a0 |}) in *.
    set (own := match bx with Some l => [{| a_type := EXTREQ; a_val := l_xenc L l |}] | None => [] end) in *.
    destruct RC as (RA & RS & l & P & RI).
    assert (IA : i_attrs (r_info c) = (own ++ [{| a_type := REQ; a_val := l_qenc L q |}]) ++ [{| a_type := REQSIG; a_val := l_senc L s1 |}])
      by (rewrite I; reflexivity).
    assert (OW : forall b, In b own -> a_type b = EXTREQ) by (subst own; destruct bx; [intros b [<- | []]; reflexivity | intros b []]).
    exists a0, s0, s1. split; [exact A0|]. cbv zeta. split; [exact S1|]. rewrite RI, set_attrs_attrs.
    split; [|split; [|split; [|split]]].
    - unfold unsigned. rewrite set_attrs_attrs, set_attrs_twice. rewrite <- S0. f_equal.
      rewrite I, set_attrs_twice. match goal with |- l_info L (set_attrs ?i _) = l_info L ?j => change (l_info L j) with (l_info L (set_attrs i (i_attrs j))) end.
      apply (ck_set _ OK). cbn [i_attrs]. fold (kept l). rewrite <- (kept_perm _ _ P), IA. unfold kept. rewrite filter_app.
      replace (filter (fun a => negb (String.eqb (a_type a) REQSIG)) [{| a_type := REQSIG; a_val := l_senc L s1 |}]) with (@nil attr) by reflexivity.
      rewrite app_nil_r, filter_app. cbn [filter a_type]. change (negb (String.eqb REQ REQSIG)) with true. cbn iota.
      replace (filter (fun a => negb (String.eqb (a_type a) REQSIG)) own) with own; [reflexivity|].
      clear -OW. induction own as [|b r IH]; [reflexivity|]. cbn [filter]. rewrite (OW b (or_introl eq_refl)). cbn. f_equal. apply IH.
      intros x X. apply OW. now right.
    - assert (EQ : l_info L (set_attrs (r_info c) l) = l_info L (r_info c)).
      { rewrite <- (ck_set _ OK (r_info c) _ _ P), set_attrs_same. reflexivity. }
      assert (SP : i_spki (r_info c) = l_spki L (s_pub bk) pss) by (rewrite I; reflexivity).
      exists (s_pub bk). rewrite RI. cbn [set_attrs i_spki]. rewrite SP. split; [apply (ck_spki _ OK)|]. split; [exact VB|].
      rewrite RA, RS, A. apply (ck_sig _ OK) with (k := bk) (h := h) (pss := pss); [exact AB|].
      change {| i_version := i_version (r_info c); i_subject := i_subject (r_info c); i_spki := i_spki (r_info c); i_attrs := l |}
        with (set_attrs (r_info c) l). now rewrite EQ.
    - apply (decodes_perm _ _ _ P). rewrite IA. intros a IN. apply in_app_iff in IN as [IN | [<- | []]].
      + apply in_app_iff in IN as [IN | [<- | []]].
        * rewrite (OW a IN). split; discriminate.
        * cbn [a_type a_val]. split; [intros _; exists q; apply (ck_req _ OK) | discriminate].
      + cbn [a_type a_val]. split; [discriminate | intros _; exists s1; apply (ck_bits _ OK)].
    - apply (lastv_unique REQ _ _ {| a_type := REQ; a_val := l_qenc L q |} P).
      + rewrite IA. apply in_app_iff. left. apply in_app_iff. right. now left.
      + reflexivity.
      + intros b B T. rewrite IA in B. apply in_app_iff in B as [B | [<- | []]]; [|discriminate T].
        apply in_app_iff in B as [B | [<- | []]]; [rewrite (OW b B) in T; discriminate T | reflexivity].
    - apply (lastv_unique REQSIG _ _ {| a_type := REQSIG; a_val := l_senc L s1 |} P).
      + rewrite IA. apply in_app_iff. right. now left.
      + reflexivity.
      + intros b B T. rewrite IA in B. apply in_app_iff in B as [B | [<- | []]]; [|reflexivity].
        apply in_app_iff in B as [B | [<- | []]]; [rewrite (OW b B) in T; discriminate T | discriminate T].
  Qed.

  Theorem built_verifies : bad = false ->
    exists a, l_alg L dk h pss = Ok a /\
      verify_paired_csr L c' = Ok {| q_subject := ds; q_spki := l_spki L (s_pub dk) false; q_exts := dx; q_alg := Some a |}.
  Proof.
    intro BA. destruct built_facts as (a0 & s0 & s1 & A0 & S1 & S0 & B & D & LV & LW). exists a0. split; [exact A0|].
    apply verify_exact. split; [exact B|]. split; [exact D|]. rewrite BA in S1. injection S1 as <-.
    eexists _, _, s0, (s_pub dk). split; [apply lastv_iff, LV|]. split; [apply (ck_req _ OK)|]. split; [apply lastv_iff, LW|].
    split; [apply (ck_bits _ OK)|]. cbn [q_spki q_alg]. split; [apply (ck_spki _ OK)|]. split; [exact VD|].
    exact (ck_sig _ OK _ _ _ _ _ _ A0 S0).
  Qed.

  Theorem built_bad : bad = true ->
    (forall a d s s', l_sign L dk h pss d = Ok s -> manipulate_first_byte s = Ok s' -> l_verify L (s_pub dk) a d s' = Err EInvalidSignature) ->
    verify_paired_csr L c' = Err EInvalidAltSignature.
  Proof.
    intros BA NV. destruct built_facts as (a0 & s0 & s1 & A0 & S1 & S0 & B & D & LV & LW). rewrite BA in S1.
    unfold verify_paired_csr. apply verify_csr_exact in B. rewrite B. cbn [bind].
    rewrite (extract_val _ _ _ _ _ D), LV, LW, (ck_req _ OK), (ck_bits _ OK). cbn [bind opt_of app q_spki q_alg].
    rewrite (ck_spki _ OK). cbn [bind]. rewrite VD. cbn [guard bind].
    change (set_attrs (r_info c') (kept (i_attrs (r_info c')))) with (unsigned (r_info c')).
    now rewrite (NV _ _ _ _ S0 S1).
  Qed.
End Built.

(** ** The delta key looked up elsewhere *)

Fixpoint firstv (t : oid) (l : list attr) : option bytes :=
  match l with [] => None | a :: r => if String.eqb (a_type a) t then Some (a_val a) else firstv t r end.

Lemma firstv_iff t l v : firstv t l = Some v <-> first_value t l v.
Proof.
  unfold first_value. split.
  - induction l as [|a r IH]; cbn [firstv]; [discriminate|]. destruct (String.eqb (a_type a) t) eqn:E.
    + intro H. injection H as <-. exists [], a, r. split; [reflexivity|]. split; [now apply String.eqb_eq|]. split; [reflexivity | intros []].
    + intro H. destruct (IH H) as (b & x & c & -> & T & V & N). exists (a :: b), x, c. split; [reflexivity|]. split; [exact T|]. split; [exact V|].
      apply String.eqb_neq in E. cbn [map In]. intros [Q | Q]; [now apply E | now apply N].
  - intros (b & a & c & -> & T & <- & N). induction b as [|x b IH]; cbn [app firstv].
    + now rewrite T, String.eqb_refl.
    + cbn [map In] in N. destruct (String.eqb (a_type x) t) eqn:E; [apply String.eqb_eq in E; elim N; now left|]. apply IH. tauto.
Qed.

Lemma first_req_val L l : first_req L l =
  match firstv REQ l with None => Ok None | Some v => let! x := l_qdec L v in Ok (Some x) end.
Proof. induction l as [|a r IH]; cbn [first_req firstv]; [reflexivity|]. destruct (String.eqb (a_type a) REQ); [reflexivity | exact IH]. Qed.

Theorem sender_exact L c p n : delta_key_and_sender L c = Ok (p, n) <->
  exists v q, first_value REQ (i_attrs (r_info c)) v /\ l_qdec L v = Ok q /\ l_load L (q_spki q) = Ok p /\
    given (q_subject q) (i_subject (r_info c)) n.
Proof.
  unfold delta_key_and_sender. rewrite first_req_val. split.
  - destruct (firstv REQ (i_attrs (r_info c))) as [v|] eqn:F; [|discriminate]. intro H.
    destruct (l_qdec L v) as [q|] eqn:D; [|discriminate H]. cbn [bind] in H. apply bind_inv in H as (p' & P & H). injection H as <- <-.
    exists v, q. split; [now apply firstv_iff|]. split; [exact D|]. split; [exact P|]. destruct (q_subject q); [now left | now right].
  - intros (v & q & F & D & P & G). apply firstv_iff in F. rewrite F, D. cbn [bind]. rewrite P. cbn [bind].
    destruct G as [-> | [-> ->]]; reflexivity.
Qed.

(** With one delta request, the key looked up is the key that is proven. *)
Theorem sender_proven L c q p n : verify_paired_csr L c = Ok q -> delta_key_and_sender L c = Ok (p, n) ->
  (exists before a after, i_attrs (r_info c) = before ++ a :: after /\ a_type a = REQ /\ ~ In REQ (map a_type (before ++ after))) ->
  l_load L (q_spki q) = Ok p.
Proof.
  intros V S (b & a & t & E & T & N). apply verify_exact in V as (_ & _ & v & w & s & p' & LV & DV & _ & _ & P & _ & _).
  apply sender_exact in S as (v' & q' & FV & DV' & P' & _).
  assert (v = a_val a).
  { apply lastv_iff, lastv_in in LV as (x & X & TX & <-). rewrite E in X. apply in_app_iff in X as [X | [X | X]]; [|now subst|];
      elim N; rewrite <- TX; apply in_map, in_app_iff; [now left | now right]. }
  assert (v' = a_val a).
  { destruct FV as (b' & x & t' & E' & TX & <- & _). assert (X : In x (i_attrs (r_info c))) by (rewrite E'; apply in_app_iff; right; now left).
    rewrite E in X. apply in_app_iff in X as [X | [X | X]]; [|now subst|]; elim N; rewrite <- TX; apply in_map, in_app_iff; [now left | now right]. }
  congruence.
Qed.
