(** Every accepted signature is the honest one, or its verification evaluates a second
    preimage of an honest hash input, or it contains an inverted chain value. *)
From Verif Require Import SlhSpec LatFacts SlhDigits SlhChecksum SlhWots SlhTree SlhHt.
From Coq Require Import Lia.
Local Open Scope Z_scope.

(** The primitives return bytes. *)
Record raw_bytes (hs : raw) : Prop := {
  by_sha256 : forall x, is_bytes (r_sha256 hs x) = true;
  by_sha512 : forall x, is_bytes (r_sha512 hs x) = true;
  by_shake256 : forall x l, is_bytes (r_shake256 hs x l) = true }.

(** The hash evaluations of a verification, as a list of (which hash, address, input). *)
Inductive hkind := KF | KH.
Definition query := (hkind * bytes * bytes)%type.
Section Queries.
Variable hs : raw.
Variable p : params.
Variable pk : bytes.
Definition hash_at (K : hkind) (A x : bytes) : bytes := match K with KF => h_f hs p pk A x | KH => h_h hs p pk A x end.
Fixpoint chain_q (l t kp : Z) (i from steps : nat) (x : bytes) : list query :=
  match steps with
  | O => []
  | S s => let A := adr l t WOTS_HASH kp (Z.of_nat i) (Z.of_nat from) in (KF, A, x) :: chain_q l t kp i (S from) s (h_f hs p pk A x)
  end.
Fixpoint climb_q (l t y kp C : Z) (auth : bytes) (js : list nat) (node : bytes) : list query :=
  match js with
  | [] => []
  | j :: r =>
      let aj := slice (j * n p) ((j + 1) * n p) auth in
      let A := adr l t y kp (Z.of_nat (S j)) (C / 2 ^ Z.of_nat (S j)) in
      let x := if Z.even (C / 2 ^ Z.of_nat j) then node ++ aj else aj ++ node in
      (KH, A, x) :: climb_q l t y kp C auth r (h_h hs p pk A x)
  end.
Definition wots_q (l t kp : Z) (sg : bytes) (v : list Z) : list query :=
  flat_map (fun i => chain_q l t kp i (Z.to_nat (nthz i v)) (Z.to_nat (w p - 1 - nthz i v)) (slice (i * n p) ((i + 1) * n p) sg)) (seq 0 (len p)) ++
  [(KH, adr l t WOTS_PK kp 0 0,
    flat_map (fun i => chainS hs p pk l t kp i (Z.to_nat (nthz i v)) (Z.to_nat (w p - 1 - nthz i v)) (slice (i * n p) ((i + 1) * n p) sg)) (seq 0 (len p)))].
Definition xmss_q (l t idx : Z) (sg : bytes) (v : list Z) : list query :=
  wots_q l t idx (firstn (len p * n p) sg) v ++
  climb_q l t TREE 0 idx (skipn (len p * n p) sg) (seq 0 (hp p)) (wots_from hs p pk l t idx (firstn (len p * n p) sg) v).
(** The part of the signature that belongs to one layer. *)
Definition layer_sig (j : nat) (sig_ht : bytes) : bytes := slice (j * (hp p + len p) * n p) ((j + 1) * (hp p + len p) * n p) sig_ht.
Definition layer_q (j : nat) (t L : Z) (sig_ht node : bytes) : list query := xmss_q (Z.of_nat j) t L (layer_sig j sig_ht) (dig p node).
Fixpoint ht_tail_q (r j : nat) (T : Z) (sig_ht node : bytes) : list query :=
  match r with
  | O => []
  | S r' =>
      let t := T / 2 ^ Z.of_nat (hp p) in
      let L := T mod 2 ^ Z.of_nat (hp p) in
      layer_q j t L sig_ht node ++ ht_tail_q r' (S j) t sig_ht (layer_from hs p pk j t L sig_ht node)
  end.
Definition ht_q (msg sig_ht : bytes) (T L : Z) : list query :=
  layer_q 0 T L sig_ht msg ++ ht_tail_q (d p - 1) 1 T sig_ht (layer_from hs p pk 0 T L sig_ht msg).
Definition fors_root_q (t kp : Z) (v : list Z) (sg : bytes) (i : nat) : list query :=
  let A := adr 0 t FORS_TREE kp 0 (fors_leaf p v i) in
  let x := slice (i * (a p + 1) * n p) ((i * (a p + 1) + 1) * n p) sg in
  (KF, A, x) :: climb_q 0 t FORS_TREE kp (fors_leaf p v i) (slice ((i * (a p + 1) + 1) * n p) ((i + 1) * (a p + 1) * n p) sg) (seq 0 (a p)) (h_f hs p pk A x).
Definition fors_q (t kp : Z) (sg : bytes) (v : list Z) : list query :=
  flat_map (fors_root_q t kp v sg) (seq 0 (k p)) ++
  [(KH, adr 0 t FORS_ROOTS kp 0 0, flat_map (fors_root_from hs p pk t kp v sg) (seq 0 (k p)))].
(** The three parts of a signature. *)
Definition sig_fors (sg : bytes) : bytes := slice (n p) ((1 + k p * (1 + a p)) * n p) sg.
Definition sig_ht (sg : bytes) : bytes := skipn ((1 + k p * (1 + a p)) * n p) sg.
(** All evaluations of F, H and T when [sg] is verified for [msg] (FIPS 205 Algorithm 20). *)
Definition verify_q (root msg sg : bytes) : list query :=
  let '(v, t, l) := md_of hs p (firstn (n p) sg) pk root msg in
  fors_q t l (sig_fors sg) v ++ ht_q (fors_from hs p pk t l (sig_fors sg) v) (sig_ht sg) t l.

(** The inputs that the key owner's trees have at an address: one per address. *)
Variable sk : bytes.
Inductive honest_q : hkind -> bytes -> bytes -> Prop :=
| hq_chain l t kp i j : (i < len p)%nat -> (j < Z.to_nat (w p - 1))%nat ->
    honest_q KF (adr l t WOTS_HASH kp (Z.of_nat i) (Z.of_nat j)) (chainS hs p pk l t kp i 0 j (wots_skS hs p sk pk l t kp i))
| hq_wots_pk l t kp : honest_q KH (adr l t WOTS_PK kp 0 0)
    (flat_map (fun i => chainS hs p pk l t kp i 0 (Z.to_nat (w p - 1)) (wots_skS hs p sk pk l t kp i)) (seq 0 (len p)))
| hq_node l t z i : honest_q KH (adr l t TREE 0 (Z.of_nat (S z)) i) (xnode hs p sk pk l t z (2 * i) ++ xnode hs p sk pk l t z (2 * i + 1))
| hq_fors_leaf t kp i : honest_q KF (adr 0 t FORS_TREE kp 0 i) (fors_skS hs p sk pk t kp i)
| hq_fors_node t kp z i : honest_q KH (adr 0 t FORS_TREE kp (Z.of_nat (S z)) i) (fnode hs p sk pk t kp z (2 * i) ++ fnode hs p sk pk t kp z (2 * i + 1))
| hq_fors_roots t kp : honest_q KH (adr 0 t FORS_ROOTS kp 0 0) (flat_map (fun i => fnode hs p sk pk t kp (a p) (Z.of_nat i)) (seq 0 (k p))).

(** One of the listed inputs is a second preimage of the key owner's input at the same address. *)
Definition second_preimage (V : list query) : Prop :=
  exists K A x y, In (K, A, x) V /\ honest_q K A y /\ x <> y /\ length x = length y /\ hash_at K A x = hash_at K A y.

(** The only message signed with the WOTS+ key pair [L] of tree [t] of layer [j]. *)
Definition honest_msg (j : nat) (t L : Z) : bytes :=
  match j with
  | O => fors_pkS hs p sk pk t L
  | S j' => xnode hs p sk pk (Z.of_nat j') (t * 2 ^ Z.of_nat (hp p) + L) (hp p) 0
  end.
(** The WOTS+ part [ws] of layer [j] contains, for some chain, a value strictly below the position that
    the key owner ever reveals, and [hd - from] applications of F lead from it to the revealed value. *)
Definition inverts (j : nat) (t L : Z) (ws : bytes) : Prop :=
  exists (i from hd : nat) (v : list Z),
    wots_digits p (honest_msg j t L) = Ok v /\ (i < len p)%nat /\ hd = Z.to_nat (nthz i v) /\ (from < hd)%nat /\
    chainS hs p pk (Z.of_nat j) t L i from (hd - from) (slice (i * n p) ((i + 1) * n p) ws) =
    chainS hs p pk (Z.of_nat j) t L i 0 hd (wots_skS hs p sk pk (Z.of_nat j) t L i).
(** The same for some layer of a hypertree signature that starts at leaf [U] of all the leaves of layer 0. *)
Definition chain_inversion (U : Z) (sight : bytes) : Prop :=
  exists j, (j < d p)%nat /\
    let T := U / 2 ^ Z.of_nat (hp p * j) in
    inverts j (T / 2 ^ Z.of_nat (hp p)) (T mod 2 ^ Z.of_nat (hp p)) (firstn (len p * n p) (layer_sig j sight)).
End Queries.

Section S.
Variable hs : raw.
Variable p : params.
Hypothesis Hraw : raw_ok hs.
Hypothesis Hby : raw_bytes hs.
Hypothesis Hwf : wfb p = true.
Variables sk pk : bytes.

Notation HQ := (honest_q hs p pk sk).
Notation sp := (second_preimage hs p pk sk).

Lemma forallb_firstn {A} (f : A -> bool) l : forall k, forallb f l = true -> forallb f (firstn k l) = true.
Proof.
  induction l as [|x l IH]; intros [|k] H; try reflexivity. cbn [firstn forallb] in *. apply andb_prop in H. destruct H as [-> H].
  apply IH. exact H.
Qed.
Lemma h_h_bytes A x : is_bytes (h_h hs p pk A x) = true.
Proof.
  unfold h_h. destruct (fam p); [apply (by_shake256 _ Hby)|].
  destruct (n p =? 16)%nat; apply forallb_firstn; [apply (by_sha256 _ Hby)|apply (by_sha512 _ Hby)].
Qed.

Definition beq (x y : bytes) : {x = y} + {x <> y} := list_eq_dec Z.eq_dec x y.

Lemma bind_at V K A x y : In (K, A, x) V -> HQ K A y -> length x = length y -> hash_at hs p pk K A x = hash_at hs p pk K A y -> sp V \/ x = y.
Proof. intros H1 H2 L E. destruct (beq x y) as [H|H]; [right; exact H|left]. exists K, A, x, y. repeat (split; [assumption|]). exact E. Qed.

Lemma incl_cons_both {A} (x : A) l V : incl (x :: l) V -> In x V /\ incl l V.
Proof. intro H. split; [apply H; left; reflexivity|]. intros y Hy. apply H. right. exact Hy. Qed.
Lemma incl_app_both {A} (u v V : list A) : incl (u ++ v) V -> incl u V /\ incl v V.
Proof. intro H. split; intros y Hy; apply H; apply in_or_app; [left|right]; exact Hy. Qed.
Lemma incl_flat_map {A B} (f : A -> list B) l V x : incl (flat_map f l) V -> In x l -> incl (f x) V.
Proof. intros H Hx y Hy. apply H. apply in_flat_map. exists x. split; assumption. Qed.

Lemma chainS_bind V l t kp i : (i < len p)%nat -> forall s f x, (f + s <= Z.to_nat (w p - 1))%nat -> length x = n p ->
  incl (chain_q hs p pk l t kp i f s x) V ->
  chainS hs p pk l t kp i f s x = chainS hs p pk l t kp i 0 (f + s) (wots_skS hs p sk pk l t kp i) ->
  sp V \/ x = chainS hs p pk l t kp i 0 f (wots_skS hs p sk pk l t kp i).
Proof.
  intro Hi. induction s as [|s IH]; intros f x Hf Lx HV E; [right; rewrite Nat.add_0_r in E; exact E|].
  cbn [chain_q] in HV. apply incl_cons_both in HV. destruct HV as [HV0 HV].
  unfold chainS in E at 1. cbn [seq fold_left] in E. replace (f + S s)%nat with (S f + s)%nat in E by lia.
  destruct (IH (S f) _ ltac:(lia) (h_f_length hs p Hraw Hwf pk x _) HV E) as [C|E1]; [left; exact C|].
  apply (bind_at V KF _ _ _ HV0 (hq_chain hs p pk sk l t kp i f Hi ltac:(lia))).
  - rewrite chainS_length by (try assumption; apply wots_skS_length; assumption). exact Lx.
  - cbn [hash_at]. rewrite E1. replace (S f) with (f + 1)%nat by lia. rewrite <- chainS_comp. reflexivity.
Qed.

Lemma climbS_bind V (N : nat -> Z -> bytes) l t y kp C auth : 0 <= C -> (forall j x, length (N j x) = n p) ->
  (forall j x, N (S j) x = h_h hs p pk (adr l t y kp (Z.of_nat (S j)) x) (N j (2 * x) ++ N j (2 * x + 1))) ->
  (forall j x, HQ KH (adr l t y kp (Z.of_nat (S j)) x) (N j (2 * x) ++ N j (2 * x + 1))) ->
  forall r j n1, length n1 = n p -> (forall q, In q (seq j r) -> length (slice (q * n p) ((q + 1) * n p) auth) = n p) ->
  incl (climb_q hs p pk l t y kp C auth (seq j r) n1) V ->
  climbS hs p pk l t y kp C auth (seq j r) n1 = N (j + r)%nat (C / 2 ^ Z.of_nat (j + r)) ->
  sp V \/ (n1 = N j (C / 2 ^ Z.of_nat j) /\ forall q, In q (seq j r) -> slice (q * n p) ((q + 1) * n p) auth = N q (sib (C / 2 ^ Z.of_nat q))).
Proof.
  intros HC LN HN HQ0. induction r as [|r IH]; intros j n1 L1 HA HV E.
  { right. rewrite Nat.add_0_r in E. split; [exact E|intros q []]. }
  cbn [seq climb_q] in HV. apply incl_cons_both in HV. destruct HV as [HV0 HV].
  cbn [seq climbS] in E. replace (j + S r)%nat with (S j + r)%nat in E by lia.
  pose proof (HA j (or_introl eq_refl)) as A1. set (aj := slice (j * n p) ((j + 1) * n p) auth) in *.
  set (A := adr l t y kp (Z.of_nat (S j)) (C / 2 ^ Z.of_nat (S j))) in *.
  set (x := if Z.even (C / 2 ^ Z.of_nat j) then n1 ++ aj else aj ++ n1) in *.
  assert (Ex : (if Z.even (C / 2 ^ Z.of_nat j) then h_h hs p pk A (n1 ++ aj) else h_h hs p pk A (aj ++ n1)) = h_h hs p pk A x)
    by (unfold x; destruct (Z.even _); reflexivity).
  rewrite Ex in E.
  destruct (IH (S j) _ (h_h_length hs p Hraw Hwf pk x A) ltac:(intros; apply HA; right; assumption) HV E) as [B|[E1 E2]]; [left; exact B|].
  rewrite HN in E1. fold A in E1.
  assert (Lx : length x = (n p + n p)%nat) by (unfold x; destruct (Z.even _); rewrite app_length; lia).
  destruct (bind_at V KH A x _ HV0 (HQ0 j (C / 2 ^ Z.of_nat (S j)))) as [B|B]; [rewrite app_length, !LN; exact Lx|exact E1|left; exact B|right].
  rewrite div_pow_S in B by lia. set (u := C / 2 ^ Z.of_nat j) in *.
  assert (G : n1 = N j u /\ aj = N j (sib u)).
  { unfold sib. unfold x in B. rewrite !Zeven_mod in *. pose proof (Z.div_mod u 2 ltac:(lia)). pose proof (Z.mod_pos_bound u 2 ltac:(lia)).
    destruct (Zeq_bool (u mod 2) 0) eqn:Q; [apply Zeq_bool_eq in Q|apply Zeq_bool_neq in Q].
    - replace (2 * (u / 2)) with u in B by lia. apply app_inj in B; [exact B|rewrite LN; exact L1].
    - replace (2 * (u / 2)) with (u - 1) in B by lia. replace (u - 1 + 1) with u in B by lia.
      apply app_inj in B; [destruct B; split; assumption|rewrite LN; exact A1]. }
  destruct G as [G1 G2]. split; [exact G1|]. intros q [<-|Hq]; [exact G2|apply E2; exact Hq].
Qed.

(** Cutting a string into pieces. *)
Lemma slice_length_eq (x : bytes) i c N : length x = (N * c)%nat -> (i < N)%nat -> length (slice (i * c) ((i + 1) * c) x) = c.
Proof. intros L H. unfold slice. rewrite firstn_length, skipn_length. nia. Qed.

Lemma pieces (x : bytes) c : forall N, length x = (N * c)%nat -> flat_map (fun i => slice (i * c) ((i + 1) * c) x) (seq 0 N) = x.
Proof.
  assert (G : forall N s (x : bytes), length x = ((s + N) * c)%nat -> flat_map (fun i => slice (i * c) ((i + 1) * c) x) (seq s N) = skipn (s * c) x).
  { clear. induction N as [|N IH]; intros s x L.
    - cbn [seq flat_map]. rewrite skipn_all2 by lia. reflexivity.
    - cbn [seq flat_map]. rewrite IH by lia. unfold slice.
      replace (S s * c)%nat with (s * c + c)%nat by lia. rewrite <- skipn_plus.
      replace ((s + 1) * c - s * c)%nat with c by lia. apply firstn_skipn. }
  intros N L. apply (G N 0%nat). exact L.
Qed.

Lemma flat_map_inj {A} (f g : A -> bytes) c l : (forall x, In x l -> length (f x) = c) -> (forall x, In x l -> length (g x) = c) ->
  flat_map f l = flat_map g l -> forall x, In x l -> f x = g x.
Proof.
  induction l as [|y l IH]; intros Hf Hg E x []; cbn [flat_map] in E.
  - subst y. apply app_inj in E; [apply E|]. rewrite Hf, Hg by (left; reflexivity). reflexivity.
  - apply app_inj in E; [|rewrite Hf, Hg by (left; reflexivity); reflexivity]. destruct E as [_ E].
    apply IH; try assumption; intros; [apply Hf|apply Hg]; right; assumption.
Qed.

(** For all, or one bad case. *)
Lemma forall_or_bad (P : nat -> Prop) (B : Prop) N : (forall i, (i < N)%nat -> B \/ P i) -> B \/ forall i, (i < N)%nat -> P i.
Proof.
  induction N as [|N IH]; intro H; [right; intros; lia|].
  destruct IH as [C|Q]; [intros; apply H; lia|left; exact C|]. destruct (H N ltac:(lia)) as [C|C]; [left; exact C|right].
  intros i Hi. destruct (Nat.eq_dec i N) as [->|]; [exact C|apply Q; lia].
Qed.

Lemma all_or_first {A} (f g : nat -> A) (dec : forall x y : A, {x = y} + {x <> y}) N :
  (forall i, (i < N)%nat -> f i = g i) \/ exists i, (i < N)%nat /\ f i <> g i.
Proof.
  induction N as [|N [H|(i & Hi & H)]]; [left; intros; lia| |right; exists i; split; [lia|exact H]].
  destruct (dec (f N) (g N)) as [E|E]; [left|right; exists N; split; [lia|exact E]].
  intros i Hi. destruct (Nat.eq_dec i N) as [->|]; [exact E|apply H; lia].
Qed.

Lemma chain_q_suffix V l t kp i : forall e f s x, incl (chain_q hs p pk l t kp i f (e + s) x) V ->
  incl (chain_q hs p pk l t kp i (f + e) s (chainS hs p pk l t kp i f e x)) V.
Proof.
  induction e as [|e IH]; intros f s x H; [rewrite Nat.add_0_r; exact H|].
  cbn [Nat.add chain_q] in H. apply incl_cons_both in H. destruct H as [_ H]. apply IH in H.
  replace (f + S e)%nat with (S f + e)%nat by lia. exact H.
Qed.

(** One layer. *)
Lemma wots_bind V (j : nat) t L sg node M : length sg = (len p * n p)%nat -> length node = n p -> length M = n p ->
  is_bytes node = true -> is_bytes M = true -> M = honest_msg hs p pk sk j t L ->
  incl (wots_q hs p pk (Z.of_nat j) t L sg (dig p node)) V ->
  wots_from hs p pk (Z.of_nat j) t L sg (dig p node) = wots_pkS hs p sk pk (Z.of_nat j) t L ->
  (sp V \/ inverts hs p pk sk j t L sg) \/ (node = M /\ sg = wots_sigS hs p sk pk (Z.of_nat j) t L (dig p M)).
Proof.
  intros Ls Ln LM Bn BM HM HV E. pose proof (wf_facts p Hwf) as (L0 & HD & _).
  destruct (dig_ok p Hwf node Ln) as (En & Lvn & Rvn). destruct (dig_ok p Hwf M LM) as (EM & LvM & RvM).
  set (vn := dig p node) in *. set (vM := dig p M) in *.
  unfold wots_q in HV. apply incl_app_both in HV. destruct HV as [HVc HVp]. apply incl_cons_both in HVp. destruct HVp as [HVp _].
  assert (HVi : forall i, (i < len p)%nat -> incl (chain_q hs p pk (Z.of_nat j) t L i (Z.to_nat (nthz i vn)) (Z.to_nat (w p - 1 - nthz i vn)) (slice (i * n p) ((i + 1) * n p) sg)) V).
  { intros i Hi. apply (incl_flat_map _ _ _ i HVc). apply in_seq. lia. }
  assert (LC1 : forall i, (i < len p)%nat -> length (slice (i * n p) ((i + 1) * n p) sg) = n p) by (intros; apply (slice_length_eq sg i (n p) (len p)); assumption).
  unfold wots_from, wots_pkS in E.
  apply (bind_at V KH _ _ _ HVp (hq_wots_pk hs p pk sk (Z.of_nat j) t L)) in E.
  2: { rewrite !(flat_map_length_const _ (n p)); [reflexivity| |].
       - intros i _. apply chainS_length; [assumption|assumption|]. apply wots_skS_length; assumption.
       - intros i Hi. apply in_seq in Hi. apply chainS_length; [assumption|assumption|]. apply LC1. lia. }
  destruct E as [E|E]; [left; left; exact E|].
  assert (Top : forall i, (i < len p)%nat ->
    chainS hs p pk (Z.of_nat j) t L i (Z.to_nat (nthz i vn)) (Z.to_nat (w p - 1 - nthz i vn)) (slice (i * n p) ((i + 1) * n p) sg) =
    chainS hs p pk (Z.of_nat j) t L i 0 (Z.to_nat (w p - 1)) (wots_skS hs p sk pk (Z.of_nat j) t L i)).
  { intros i Hi. refine (flat_map_inj _ _ (n p) (seq 0 (len p)) _ _ E i _).
    - intros x Hx. apply in_seq in Hx. apply chainS_length; [assumption|assumption|]. apply LC1. lia.
    - intros x _. apply chainS_length; [assumption|assumption|]. apply wots_skS_length; assumption.
    - apply in_seq. lia. }
  destruct (beq node M) as [EqM|NeM].
  - assert (Ev : vn = vM) by (unfold vn, vM; rewrite EqM; reflexivity). rewrite Ev in *.
    assert (Pc : sp V \/ forall i, (i < len p)%nat -> slice (i * n p) ((i + 1) * n p) sg =
       chainS hs p pk (Z.of_nat j) t L i 0 (Z.to_nat (nthz i vM)) (wots_skS hs p sk pk (Z.of_nat j) t L i)).
    { apply forall_or_bad. intros i Hi. specialize (Top i Hi). pose proof (digit_range p Hwf vM i LvM RvM) as R.
      apply (chainS_bind V (Z.of_nat j) t L i Hi (Z.to_nat (w p - 1 - nthz i vM)) (Z.to_nat (nthz i vM))); [lia|apply LC1; exact Hi|apply HVi; exact Hi|].
      rewrite Top. f_equal. lia. }
    destruct Pc as [B|Pc]; [left; left; exact B|right]. split; [exact EqM|].
    rewrite <- (pieces sg (n p) (len p) Ls). unfold wots_sigS. apply flat_map_ext_in'. intros i Hi. apply in_seq in Hi. apply Pc. lia.
  - left. destruct (wots_incomparable p ltac:(lia) HD node M vn vM Ln LM Bn BM NeM En EM) as (i & Hi & Hlt).
    specialize (Top i Hi). specialize (HVi i Hi). pose proof (digit_range p Hwf vM i LvM RvM) as R. pose proof (digit_range p Hwf vn i Lvn Rvn) as R'.
    set (f := Z.to_nat (nthz i vn)) in *. set (e := (Z.to_nat (nthz i vM) - f)%nat).
    assert (He : (f + e)%nat = Z.to_nat (nthz i vM)) by (unfold e, f; lia).
    replace (Z.to_nat (w p - 1 - nthz i vn)) with (e + Z.to_nat (w p - 1 - nthz i vM))%nat in Top, HVi by (unfold e, f; lia).
    rewrite <- chainS_comp in Top.
    assert (HV2 : incl (chain_q hs p pk (Z.of_nat j) t L i (f + e) (Z.to_nat (w p - 1 - nthz i vM)) (chainS hs p pk (Z.of_nat j) t L i f e (slice (i * n p) ((i + 1) * n p) sg))) V)
      by (apply chain_q_suffix; exact HVi).
    replace (Z.to_nat (w p - 1)) with (f + e + Z.to_nat (w p - 1 - nthz i vM))%nat in Top by lia.
    destruct (chainS_bind V (Z.of_nat j) t L i Hi (Z.to_nat (w p - 1 - nthz i vM)) (f + e) (chainS hs p pk (Z.of_nat j) t L i f e (slice (i * n p) ((i + 1) * n p) sg))) as [T|T].
    + lia.
    + apply chainS_length; [assumption|assumption|]. apply LC1. exact Hi.
    + exact HV2.
    + exact Top.
    + left. exact T.
    + right. exists i, f, (f + e)%nat, vM. rewrite <- HM.
      split; [exact EM|]. split; [exact Hi|]. split; [exact He|]. split; [unfold e, f; lia|].
      replace (f + e - f)%nat with e by lia. exact T.
Qed.

Lemma auth_bind (N : nat -> Z -> bytes) auth C H : length auth = (H * n p)%nat ->
  (forall j, In j (seq 0 H) -> slice (j * n p) ((j + 1) * n p) auth = N j (sib (C / 2 ^ Z.of_nat j))) ->
  auth = auth_path N C H.
Proof.
  intros La E. rewrite <- (pieces auth (n p) H La). unfold auth_path. apply flat_map_ext_in'. exact E.
Qed.

Lemma layer_bind V (j : nat) t L sg node M : length sg = ((hp p + len p) * n p)%nat -> 0 <= L < 2 ^ Z.of_nat (hp p) ->
  length node = n p -> length M = n p -> is_bytes node = true -> is_bytes M = true -> M = honest_msg hs p pk sk j t L ->
  incl (xmss_q hs p pk (Z.of_nat j) t L sg (dig p node)) V ->
  xmss_from hs p pk (Z.of_nat j) t L sg (dig p node) = xnode hs p sk pk (Z.of_nat j) t (hp p) 0 ->
  (sp V \/ inverts hs p pk sk j t L (firstn (len p * n p) sg)) \/ (node = M /\ sg = xmss_sigS hs p sk pk (Z.of_nat j) t L (dig p M)).
Proof.
  intros Ls HL Ln LM Bn BM HM HV E. set (l := Z.of_nat j) in *. unfold xmss_q in HV. apply incl_app_both in HV. destruct HV as [HV1 HV2].
  unfold xmss_from in E.
  set (ws := firstn (len p * n p) sg) in *. set (au := skipn (len p * n p) sg) in *.
  assert (Lws : length ws = (len p * n p)%nat) by (unfold ws; rewrite firstn_length; lia).
  assert (Lau : length au = (hp p * n p)%nat) by (unfold au; rewrite skipn_length; lia).
  apply (climbS_bind V (xnode hs p sk pk l t) l t TREE 0 L au) with (r := hp p) (j := 0%nat) in HV2.
  - destruct HV2 as [B|[E1 E2]]; [left; left; exact B|].
    change (2 ^ Z.of_nat 0) with 1 in E1. rewrite Z.div_1_r in E1.
    destruct (wots_bind V j t L ws node M Lws Ln LM Bn BM HM HV1 E1) as [B|[Q1 Q2]]; [left; exact B|right]. split; [exact Q1|].
    rewrite <- (firstn_skipn (len p * n p) sg). fold ws au. unfold xmss_sigS. f_equal; [exact Q2|].
    apply auth_bind; [exact Lau|exact E2].
  - lia.
  - intros; apply xnode_length; assumption.
  - reflexivity.
  - intros. apply hq_node.
  - apply h_h_length; assumption.
  - intros q Hq. apply in_seq in Hq. apply (slice_length_eq au q (n p) (hp p)); [exact Lau|lia].
  - rewrite E. cbn [Nat.add]. rewrite Z.div_small by lia. reflexivity.
Qed.

Lemma xnode_bytes l t z i : is_bytes (xnode hs p sk pk l t z i) = true.
Proof. destruct z; apply h_h_bytes. Qed.
Lemma layer_from_bytes j t L sg node : (length (layer_from hs p pk j t L sg node) = n p) /\ is_bytes (layer_from hs p pk j t L sg node) = true.
Proof.
  split; [apply xmss_from_length; assumption|]. unfold layer_from, xmss_from.
  assert (G : forall l t y kp C auth js nd, is_bytes nd = true -> is_bytes (climbS hs p pk l t y kp C auth js nd) = true).
  { clear - Hby. intros l t y kp C auth. induction js as [|q js IH]; intros nd H; [exact H|]. cbn [climbS]. apply IH.
    destruct (Z.even _); apply h_h_bytes. }
  apply G. apply h_h_bytes.
Qed.

Lemma path_step U j : U / 2 ^ Z.of_nat (hp p * j) / 2 ^ Z.of_nat (hp p) = U / 2 ^ Z.of_nat (hp p * S j).
Proof.
  rewrite Z.div_div by (try apply Z.pow_nonzero; try apply Z.pow_pos_nonneg; lia). rewrite <- Z.pow_add_r by lia. f_equal. f_equal. nia.
Qed.

Lemma tail_bind V U X sig : X = ((hp p + len p) * n p)%nat -> 0 <= U -> forall r j T node M, (1 <= j)%nat -> (j + r = d p)%nat ->
  length sig = ((j + r) * X)%nat -> T = U / 2 ^ Z.of_nat (hp p * j) ->
  length node = n p -> is_bytes node = true -> M = xnode hs p sk pk (Z.of_nat (j - 1)) T (hp p) 0 ->
  incl (ht_tail_q hs p pk r j T sig node) V ->
  ht_tail_from hs p pk r j T sig node = match r with O => M | S r' => xnode hs p sk pk (Z.of_nat (j + r')) (T / 2 ^ Z.of_nat (hp p * r)) (hp p) 0 end ->
  (sp V \/ chain_inversion hs p pk sk U sig) \/ (node = M /\ skipn (j * X) sig = ht_tailS hs p sk pk r j T M).
Proof.
  intros HX HU. induction r as [|r IH]; intros j T node M Hj Hd Ls ET Ln Bn HM HV E.
  - right. split; [exact E|]. cbn [ht_tailS]. apply skipn_all2. lia.
  - cbn [ht_tail_from] in E. cbn [ht_tail_q] in HV. apply incl_app_both in HV. destruct HV as [HV1 HV2].
    pose proof (Z.mod_pos_bound T (2 ^ Z.of_nat (hp p)) ltac:(apply Z.pow_pos_nonneg; lia)) as Hi.
    assert (HT : 0 <= T) by (rewrite ET; apply Z.div_pos; [lia|apply Z.pow_pos_nonneg; lia]).
    assert (Et : T / 2 ^ Z.of_nat (hp p) = U / 2 ^ Z.of_nat (hp p * S j)) by (rewrite ET; apply path_step).
    assert (HI : inverts hs p pk sk j (T / 2 ^ Z.of_nat (hp p)) (T mod 2 ^ Z.of_nat (hp p)) (firstn (len p * n p) (layer_sig p j sig)) -> chain_inversion hs p pk sk U sig).
    { intro B. exists j. split; [lia|]. cbv zeta. rewrite <- ET. exact B. }
    set (L := T mod 2 ^ Z.of_nat (hp p)) in *. set (t := T / 2 ^ Z.of_nat (hp p)) in *.
    destruct (layer_from_bytes j t L sig node) as [LL LB].
    specialize (IH (S j) t (layer_from hs p pk j t L sig node) (xnode hs p sk pk (Z.of_nat j) t (hp p) 0) ltac:(lia) ltac:(lia) ltac:(lia) Et LL LB).
    replace (S j - 1)%nat with j in IH by lia. specialize (IH eq_refl HV2).
    assert (F : ht_tail_from hs p pk r (S j) t sig (layer_from hs p pk j t L sig node) =
      match r with O => xnode hs p sk pk (Z.of_nat j) t (hp p) 0 | S r' => xnode hs p sk pk (Z.of_nat (S j + r')) (t / 2 ^ Z.of_nat (hp p * r)) (hp p) 0 end).
    { rewrite E. destruct r as [|r].
      - rewrite Nat.add_0_r, Nat.mul_1_r. reflexivity.
      - replace (S j + r)%nat with (j + S r)%nat by lia. f_equal. unfold t.
        replace (Z.of_nat (hp p * S (S r))) with (Z.of_nat (hp p) + Z.of_nat (hp p * S r)) by lia.
        rewrite Z.pow_add_r by lia. rewrite Z.div_div by (try apply Z.pow_nonzero; try apply Z.pow_pos_nonneg; lia). reflexivity. }
    destruct (IH F) as [B|[E1 E2]]; [left; exact B|].
    unfold layer_from in E1.
    assert (HMs : M = honest_msg hs p pk sk j t L).
    { rewrite HM. destruct j as [|j]; [lia|]. cbn [honest_msg]. replace (S j - 1)%nat with j by lia. f_equal.
      unfold t, L. rewrite Z.mul_comm. apply Z.div_mod. apply Z.pow_nonzero; lia. }
    apply (layer_bind V j t L _ node M) in E1.
    + destruct E1 as [[B|B]|[E3 E4]]; [left; left; exact B|left; right; apply HI; exact B|right]. split; [exact E3|].
      cbn [ht_tailS]. fold L t. rewrite <- E4, <- E2. unfold slice.
      replace (S j * X)%nat with (j * X + X)%nat by lia. rewrite <- skipn_plus.
      replace ((j + 1) * (hp p + len p) * n p - j * (hp p + len p) * n p)%nat with X by lia.
      replace (j * (hp p + len p) * n p)%nat with (j * X)%nat by lia. symmetry. apply firstn_skipn.
    + unfold slice. rewrite firstn_length, skipn_length. nia.
    + exact Hi.
    + exact Ln.
    + rewrite HM. apply xnode_length; assumption.
    + exact Bn.
    + rewrite HM. apply xnode_bytes.
    + exact HMs.
    + exact HV1.
Qed.

Lemma ht_bind V msg sig T L : length sig = (d p * ((hp p + len p) * n p))%nat -> 0 <= L < 2 ^ Z.of_nat (hp p) ->
  0 <= T < 2 ^ Z.of_nat (h p - hp p) -> length msg = n p -> is_bytes msg = true ->
  incl (ht_q hs p pk msg sig T L) V ->
  ht_from hs p pk msg sig T L = top_root hs p sk pk ->
  (sp V \/ chain_inversion hs p pk sk (T * 2 ^ Z.of_nat (hp p) + L) sig) \/
  (msg = fors_pkS hs p sk pk T L /\ sig = ht_sigS hs p sk pk (fors_pkS hs p sk pk T L) T L).
Proof.
  intros Ls HL HT Lm Bm HV E. pose proof (wf_facts p Hwf) as (_ & _ & _ & D & Hh & _).
  unfold ht_q in HV. apply incl_app_both in HV. destruct HV as [HV1 HV2].
  set (X := ((hp p + len p) * n p)%nat) in *. unfold ht_from in E.
  destruct (layer_from_bytes 0 T L sig msg) as [LL LB].
  assert (P : 0 < 2 ^ Z.of_nat (hp p)) by (apply Z.pow_pos_nonneg; lia).
  destruct (tail_bind V (T * 2 ^ Z.of_nat (hp p) + L) X sig eq_refl ltac:(nia) (d p - 1) 1 T (layer_from hs p pk 0 T L sig msg) (xnode hs p sk pk 0 T (hp p) 0)) as [B|[E1 E2]].
  - lia.
  - lia.
  - rewrite Ls. f_equal. lia.
  - rewrite Nat.mul_1_r, Z.add_comm, Z.div_add by lia. rewrite Z.div_small by lia. reflexivity.
  - exact LL.
  - exact LB.
  - reflexivity.
  - exact HV2.
  - rewrite E. unfold top_root. destruct (d p - 1)%nat as [|r] eqn:Er.
    + assert (Hd : d p = 1%nat) by lia. rewrite Hd in *. replace (h p - hp p)%nat with 0%nat in HT by lia.
      change (2 ^ Z.of_nat 0) with 1 in HT. replace T with 0 by lia. reflexivity.
    + f_equal; [lia|]. replace (hp p * S r)%nat with (h p - hp p)%nat by (rewrite Hh, <- Er; nia).
      symmetry. apply Z.div_small. exact HT.
  - left. exact B.
  - unfold layer_from in E1. apply (layer_bind V 0 T L _ msg (fors_pkS hs p sk pk T L)) in E1.
    + destruct E1 as [[B|B]|[E3 E4]]; [left; left; exact B| |right].
      { left. right. exists 0%nat. split; [lia|]. cbv zeta. rewrite Nat.mul_0_r. change (2 ^ Z.of_nat 0) with 1. rewrite Z.div_1_r.
        rewrite (Z.add_comm (T * _)), Z.div_add by lia. rewrite Z.div_small by lia. rewrite Z.mod_add by lia. rewrite Z.mod_small by lia. exact B. }
      split; [exact E3|].
      unfold ht_sigS. rewrite <- E2. change (Z.of_nat 0) with 0 in E4. rewrite <- E4. unfold slice.
      replace ((0 + 1) * (hp p + len p) * n p - 0 * (hp p + len p) * n p)%nat with X by (unfold X; lia).
      rewrite Nat.mul_1_l. cbn [Nat.mul skipn]. symmetry. apply firstn_skipn.
    + unfold slice. rewrite firstn_length, skipn_length. fold X. nia.
    + exact HL.
    + exact Lm.
    + apply h_h_length; assumption.
    + exact Bm.
    + apply h_h_bytes.
    + reflexivity.
    + exact HV1.
Qed.

Lemma fors_bind V t kp v sg : idxs_ok p v -> length sg = (k p * (1 + a p) * n p)%nat -> incl (fors_q hs p pk t kp sg v) V ->
  fors_from hs p pk t kp sg v = fors_pkS hs p sk pk t kp -> sp V \/ sg = fors_sigS hs p sk pk t kp v.
Proof.
  intros Hv Ls HV E. unfold fors_from, fors_pkS in E.
  unfold fors_q in HV. apply incl_app_both in HV. destruct HV as [HV HVr]. apply incl_cons_both in HVr. destruct HVr as [HVr _].
  assert (LR : forall i, length (fors_root_from hs p pk t kp v sg i) = n p).
  { intro i. apply climbS_length; [assumption|assumption|]. apply h_f_length; assumption. }
  apply (bind_at V KH _ _ _ HVr (hq_fors_roots hs p pk sk t kp)) in E.
  2: { rewrite !(flat_map_length_const _ (n p)); [reflexivity| |]; intros; [apply fnode_length; assumption|apply LR]. }
  destruct E as [E|E]; [left; exact E|].
  assert (Top : forall i, (i < k p)%nat -> fors_root_from hs p pk t kp v sg i = fnode hs p sk pk t kp (a p) (Z.of_nat i)).
  { intros i Hi. refine (flat_map_inj _ _ (n p) (seq 0 (k p)) _ _ E i _).
    - intros; apply LR.
    - intros; apply fnode_length; assumption.
    - apply in_seq. lia. }
  set (B := fun i => fors_skS hs p sk pk t kp (fors_leaf p v i) ++ auth_path (fnode hs p sk pk t kp) (fors_leaf p v i) (a p)).
  assert (Pc : sp V \/ forall i, (i < k p)%nat -> slice (i * ((1 + a p) * n p)) ((i + 1) * ((1 + a p) * n p)) sg = B i).
  { apply forall_or_bad. intros i Hi. specialize (Top i Hi). unfold fors_root_from in Top.
    set (C := fors_leaf p v i) in *.
    pose proof (leaf_range p Hwf v i Hv Hi) as RC. fold C in RC.
    assert (EC : C / 2 ^ Z.of_nat (a p) = Z.of_nat i).
    { unfold C, fors_leaf. rewrite leaf_shift; [|apply idx_range; [exact Hv|exact Hi]|lia].
      rewrite Nat.sub_diag. change (2 ^ Z.of_nat 0) with 1. rewrite (Z.div_small (nthz i v)) by (apply idx_range; [exact Hv|exact Hi]). lia. }
    pose proof (incl_flat_map _ _ _ i HV ltac:(apply in_seq; lia)) as HVi. unfold fors_root_q in HVi. cbv zeta in HVi. fold C in HVi.
    apply incl_cons_both in HVi. destruct HVi as [HV0 HVc].
    set (s0 := slice (i * (a p + 1) * n p) ((i * (a p + 1) + 1) * n p) sg) in *.
    set (au := slice ((i * (a p + 1) + 1) * n p) ((i + 1) * (a p + 1) * n p) sg) in *.
    assert (Ls0 : length s0 = n p).
    { unfold s0, slice. rewrite firstn_length, skipn_length.
      assert ((i * (a p + 1) + 1) * n p <= length sg)%nat by (rewrite Ls; apply Nat.mul_le_mono_r; nia). lia. }
    assert (Lau : length au = (a p * n p)%nat).
    { unfold au, slice. rewrite firstn_length, skipn_length.
      assert ((i + 1) * (a p + 1) * n p <= length sg)%nat by (rewrite Ls; apply Nat.mul_le_mono_r; nia). lia. }
    apply (climbS_bind V (fnode hs p sk pk t kp) 0 t FORS_TREE kp C au) with (r := a p) (j := 0%nat) in HVc.
    - destruct HVc as [T|[T1 T2]]; [left; exact T|].
      change (2 ^ Z.of_nat 0) with 1 in T1. rewrite Z.div_1_r in T1.
      apply (bind_at V KF _ _ _ HV0 (hq_fors_leaf hs p pk sk t kp C)) in T1; [|rewrite Ls0; unfold fors_skS; rewrite prf_length by assumption; reflexivity].
      destruct T1 as [T1|T1]; [left; exact T1|right].
      apply auth_bind in T2; [|exact Lau].
      unfold B. fold C. rewrite <- T1, <- T2. unfold s0, au, slice.
      replace ((i * (a p + 1) + 1) * n p)%nat with (i * (a p + 1) * n p + n p)%nat by lia. rewrite <- skipn_plus.
      replace (i * (a p + 1) * n p + n p - i * (a p + 1) * n p)%nat with (n p) by lia.
      replace ((i + 1) * (a p + 1) * n p - (i * (a p + 1) * n p + n p))%nat with (a p * n p)%nat by lia.
      replace ((i + 1) * ((1 + a p) * n p) - i * ((1 + a p) * n p))%nat with (n p + a p * n p)%nat by lia.
      replace (i * ((1 + a p) * n p))%nat with (i * (a p + 1) * n p)%nat by lia.
      set (z := skipn (i * (a p + 1) * n p) sg).
      rewrite <- (firstn_skipn (n p) (firstn (n p + a p * n p) z)).
      rewrite firstn_firstn, Nat.min_l by lia. f_equal. rewrite skipn_firstn_comm. f_equal. lia.
    - lia.
    - intros; apply fnode_length; assumption.
    - reflexivity.
    - intros. apply hq_fors_node.
    - apply h_f_length; assumption.
    - intros q Hq. apply in_seq in Hq. apply (slice_length_eq au q (n p) (a p)); [exact Lau|lia].
    - rewrite Top. cbn [Nat.add]. rewrite EC. reflexivity. }
  destruct Pc as [Q|Pc]; [left; exact Q|right].
  rewrite <- (pieces sg ((1 + a p) * n p) (k p)) by (rewrite Ls; lia).
  unfold fors_sigS. fold B. apply flat_map_ext_in'. intros i Hi. apply in_seq in Hi. apply Pc. lia.
Qed.
End S.

Lemma bytes_eqb_eq x : forall y, bytes_eqb x y = true -> x = y.
Proof.
  induction x as [|a x IH]; intros [|b y] H; try discriminate; [reflexivity|]. cbn [bytes_eqb] in H.
  apply andb_prop in H. destruct H as [H1 H2]. apply Z.eqb_eq in H1. rewrite H1. f_equal. apply IH. exact H2.
Qed.

(** The main statement: an accepted signature under a generated key. *)
Theorem accepted_is_honest hs p sk_seed sk_prf pk_seed pk sk msg sg :
  raw_ok hs -> raw_bytes hs -> wfb p = true ->
  length sk_seed = n p -> length sk_prf = n p -> length pk_seed = n p ->
  slh_keygen_internal hs p sk_seed sk_prf pk_seed = Ok (pk, sk) ->
  slh_verify_internal hs p msg sg pk = Ok true ->
  (let R := firstn (n p) sg in
   exists t l v, md_of hs p R pk_seed (skipn (n p) pk) msg = (v, t, l) /\
   sg = R ++ fors_sigS hs p sk_seed pk_seed t l v ++ ht_sigS hs p sk_seed pk_seed (fors_pkS hs p sk_seed pk_seed t l) t l) \/
  second_preimage hs p pk_seed sk_seed (verify_q hs p pk_seed (skipn (n p) pk) msg sg) \/
  (exists t l v, md_of hs p (firstn (n p) sg) pk_seed (skipn (n p) pk) msg = (v, t, l) /\
   chain_inversion hs p pk_seed sk_seed (t * 2 ^ Z.of_nat (hp p) + l) (sig_ht p sg)).
Proof.
  intros Hraw Hby Hwf L1 L2 L3 K V.
  rewrite (keygen_ok hs p Hwf) in K.
  assert (E1 : pk = pk_seed ++ top_root hs p sk_seed pk_seed) by congruence. clear K.
  set (root := top_root hs p sk_seed pk_seed) in *.
  assert (Ls : length sg = sig_sz p).
  { unfold slh_verify_internal in V. destruct (length sg =? sig_sz p)%nat eqn:Q; [apply Nat.eqb_eq in Q; exact Q|discriminate]. }
  assert (Lroot : length root = n p) by (apply xnode_length; assumption).
  assert (Lpk : length pk = pk_sz p) by (rewrite E1, app_length; unfold pk_sz; lia).
  pose proof (verify_internal_ok hs p Hraw Hwf msg sg pk Ls Lpk) as VI. cbv zeta in VI.
  replace (slice 0 (n p) pk) with pk_seed in VI by (rewrite E1; symmetry; apply (slice_mid []); [reflexivity|exact L3]).
  replace (slice 0 (n p) sg) with (firstn (n p) sg) in VI by (unfold slice; rewrite Nat.sub_0_r; reflexivity).
  replace (skipn (n p) pk) with root in VI |- * by (rewrite E1; symmetry; apply skipn_app_exact; exact L3).
  cbv zeta.
  pose proof (md_of_range hs p Hraw Hwf (firstn (n p) sg) pk_seed root msg) as MR.
  destruct (md_of hs p (firstn (n p) sg) pk_seed root msg) as [[v t] l] eqn:EM. destruct MR as (Hv & HT & Hl).
  rewrite V in VI. injection VI as VI. symmetry in VI. apply bytes_eqb_eq in VI.
  set (sf := slice (n p) ((1 + k p * (1 + a p)) * n p) sg) in *.
  set (sh := skipn ((1 + k p * (1 + a p)) * n p) sg) in *.
  pose proof (wf_facts p Hwf) as (_ & _ & _ & D & Hh & _).
  assert (Lsz : sig_sz p = (n p + k p * (1 + a p) * n p + d p * ((hp p + len p) * n p))%nat) by (unfold sig_sz; rewrite Hh; nia).
  assert (Lsf : length sf = (k p * (1 + a p) * n p)%nat) by (unfold sf, slice; rewrite firstn_length, skipn_length, Ls, Lsz; lia).
  assert (Lsh : length sh = (d p * ((hp p + len p) * n p))%nat) by (unfold sh; rewrite skipn_length, Ls, Lsz; lia).
  set (VQ := verify_q hs p pk_seed root msg sg).
  assert (HV : incl (fors_q hs p pk_seed t l sf v ++ ht_q hs p pk_seed (fors_from hs p pk_seed t l sf v) sh t l) VQ)
    by (unfold VQ, verify_q; rewrite EM; apply incl_refl).
  apply incl_app_both in HV. destruct HV as [HV1 HV2].
  apply (ht_bind hs p Hraw Hby Hwf sk_seed pk_seed VQ) in VI; [|exact Lsh|exact Hl|exact HT|apply h_h_length; assumption|apply h_h_bytes; assumption|exact HV2].
  destruct VI as [[B|B]|[F1 F2]]; [right; left; exact B|right; right; exists t, l, v; split; [reflexivity|exact B]|].
  apply (fors_bind hs p Hraw Hwf sk_seed pk_seed VQ) in F1; [|exact Hv|exact Lsf|exact HV1].
  destruct F1 as [B|F1]; [right; left; exact B|left].
  exists t, l, v. split; [reflexivity|]. rewrite <- F1, <- F2. unfold sf, sh, slice.
  replace ((1 + k p * (1 + a p)) * n p)%nat with (n p + k p * (1 + a p) * n p)%nat by lia. rewrite <- skipn_plus.
  replace (n p + k p * (1 + a p) * n p - n p)%nat with (k p * (1 + a p) * n p)%nat by lia.
  rewrite <- (firstn_skipn (n p) sg) at 1. f_equal. symmetry.
  match goal with |- firstn ?u _ ++ skipn ?v _ = _ => replace u with v by lia end. apply firstn_skipn.
Qed.
