(** Facts about the shared definitions of the lattice models: congruences,
    finite sums, linear maps on coefficient lists, bit strings. *)
From Verif Require Export LatBase LatSpec PreludeFacts.
From Coq Require Import Setoid Morphisms.
Local Open Scope Z_scope.

(** * Congruence modulo [q] *)
Definition cg (q a b : Z) : Prop := exists c, a = b + c * q.

Global Instance cg_equiv q : Equivalence (cg q).
Proof.
  split.
  - intro a. exists 0. ring.
  - intros a b [c ->]. exists (-c). ring.
  - intros a b d [c ->] [e ->]. exists (e + c). ring.
Qed.
Global Instance cg_add q : Proper (cg q ==> cg q ==> cg q) Z.add.
Proof. intros a b [c ->] x y [d ->]. exists (c + d). ring. Qed.
Global Instance cg_sub q : Proper (cg q ==> cg q ==> cg q) Z.sub.
Proof. intros a b [c ->] x y [d ->]. exists (c - d). ring. Qed.
Global Instance cg_mul q : Proper (cg q ==> cg q ==> cg q) Z.mul.
Proof. intros a b [c ->] x y [d ->]. exists (b * d + c * y + c * d * q). ring. Qed.
Global Instance cg_opp q : Proper (cg q ==> cg q) Z.opp.
Proof. intros a b [c ->]. exists (- c). ring. Qed.

Lemma cg_refl q a : cg q a a. Proof. reflexivity. Qed.

Lemma cg_mod q a : q <> 0 -> cg q (a mod q) a.
Proof. intro H. exists (- (a / q)). rewrite (Z.mod_eq a q H). ring. Qed.

Lemma cg_eq_mod q a b : 0 < q -> cg q a b -> a mod q = b mod q.
Proof. intros H [c ->]. apply Z_mod_plus_full. Qed.

Lemma mod_eq_cg q a b : 0 < q -> a mod q = b mod q -> cg q a b.
Proof.
  intros H E. transitivity (a mod q).
  - symmetry. apply cg_mod. lia.
  - rewrite E. apply cg_mod. lia.
Qed.

Lemma cg_small q a b : 0 <= a < q -> 0 <= b < q -> cg q a b -> a = b.
Proof.
  intros Ha Hb H. apply cg_eq_mod in H; [|lia].
  rewrite !Z.mod_small in H by lia. exact H.
Qed.

Lemma cg_of_eq q a b : a = b -> cg q a b.
Proof. intros ->. reflexivity. Qed.

(** * Sums *)
Lemma zsum_cg q n f g : (forall i, (i < n)%nat -> cg q (f i) (g i)) -> cg q (zsum n f) (zsum n g).
Proof.
  induction n as [|n IH]; intro H; simpl; [reflexivity|].
  rewrite IH by (intros; apply H; lia). rewrite (H n) by lia. reflexivity.
Qed.
Lemma zsum_ext n f g : (forall i, (i < n)%nat -> f i = g i) -> zsum n f = zsum n g.
Proof.
  induction n as [|n IH]; intro H; simpl; [reflexivity|].
  rewrite IH by (intros; apply H; lia). rewrite (H n) by lia. reflexivity.
Qed.
Lemma zsum_0 n : zsum n (fun _ => 0) = 0.
Proof. induction n; simpl; lia. Qed.
Lemma zsum_add n f g : zsum n (fun i => f i + g i) = zsum n f + zsum n g.
Proof. induction n; simpl; lia. Qed.
Lemma zsum_sub n f g : zsum n (fun i => f i - g i) = zsum n f - zsum n g.
Proof. induction n; simpl; lia. Qed.
Lemma zsum_scale n a f : zsum n (fun i => a * f i) = a * zsum n f.
Proof. induction n; simpl; lia. Qed.
Lemma zsum_scale_r n a f : zsum n (fun i => f i * a) = zsum n f * a.
Proof. induction n; simpl; lia. Qed.
Lemma zsum_swap n m (f : nat -> nat -> Z) :
  zsum n (fun i => zsum m (fun j => f i j)) = zsum m (fun j => zsum n (fun i => f i j)).
Proof.
  induction n; simpl.
  - rewrite zsum_0. reflexivity.
  - rewrite IHn, zsum_add. reflexivity.
Qed.
Lemma zsum_single n a f : (a < n)%nat -> (forall i, (i < n)%nat -> i <> a -> f i = 0) ->
  zsum n f = f a.
Proof.
  induction n as [|n IH]; intros H Hz; [lia|]. simpl.
  destruct (Nat.eq_dec n a) as [->|N].
  - rewrite (zsum_ext a f (fun _ => 0)) by (intros; apply Hz; lia).
    rewrite zsum_0. lia.
  - rewrite IH by (try lia; intros; apply Hz; lia). rewrite (Hz n) by lia. lia.
Qed.

(** * Lists *)
Lemma upd_length l : forall j x, length (upd l j x) = length l.
Proof. induction l; intros [|j] x; simpl; auto. Qed.

Lemma nthz_upd l : forall j x i, (j < length l)%nat ->
  nthz i (upd l j x) = if Nat.eqb i j then x else nthz i l.
Proof.
  unfold nthz. induction l as [|y l IH]; intros j x i H; simpl in H; [lia|].
  destruct j as [|j], i as [|i]; simpl; auto. apply IH. lia.
Qed.

Lemma nthz_overflow j l : (length l <= j)%nat -> nthz j l = 0.
Proof. apply nth_overflow. Qed.

Lemma nthz_ext f g : length f = length g ->
  (forall j, (j < length f)%nat -> nthz j f = nthz j g) -> f = g.
Proof. intros H1 H2. apply (nth_ext f g 0 0 H1 H2). Qed.

Lemma nthz_map_seq (F : nat -> Z) n j : (j < n)%nat -> nthz j (map F (seq 0 n)) = F j.
Proof.
  intro H. unfold nthz.
  rewrite (nth_indep _ 0 (F 0%nat)) by (rewrite map_length, seq_length; exact H).
  rewrite map_nth, seq_nth by exact H. reflexivity.
Qed.

Lemma nth_map_seq {A} (F : nat -> A) n j d : (j < n)%nat -> nth j (map F (seq 0 n)) d = F j.
Proof.
  intro H. rewrite (nth_indep _ d (F 0%nat)) by (rewrite map_length, seq_length; exact H).
  rewrite map_nth, seq_nth by exact H. reflexivity.
Qed.

Lemma nthz_map (F : Z -> Z) l j : (j < length l)%nat -> nthz j (map F l) = F (nthz j l).
Proof.
  intro H. unfold nthz. rewrite (nth_indep _ 0 (F 0)) by (rewrite map_length; exact H).
  apply map_nth.
Qed.

Lemma nthz_flat_map2 (F G : nat -> Z) : forall n s i b, (i < n)%nat -> (b < 2)%nat ->
  nthz (2 * i + b) (flat_map (fun j => [F j; G j]) (seq s n)) =
  (if Nat.eqb b 0 then F (s + i)%nat else G (s + i)%nat).
Proof.
  unfold nthz. induction n as [|n IH]; intros s i b Hi Hb; [lia|].
  cbn [seq flat_map]. destruct i as [|i].
  - rewrite Nat.add_0_r. destruct b as [|[|b]]; [reflexivity|reflexivity|lia].
  - replace (2 * S i + b)%nat with (S (S (2 * i + b))) by lia. cbn [nth app].
    rewrite IH by lia. replace (S s + i)%nat with (s + S i)%nat by lia. reflexivity.
Qed.

Lemma flat_map2_length (F G : nat -> Z) : forall n s,
  length (flat_map (fun j => [F j; G j]) (seq s n)) = (2 * n)%nat.
Proof. induction n; intro s; simpl; [reflexivity|]. rewrite IHn. lia. Qed.

(** Equality of coefficient lists of length [n] modulo [q]. *)
Definition veq (q : Z) (n : nat) (f g : list Z) : Prop :=
  length f = n /\ length g = n /\ forall j, (j < n)%nat -> cg q (nthz j f) (nthz j g).

Definition reduced (q : Z) (f : list Z) : Prop := Forall (fun x => 0 <= x < q) f.

Lemma reduced_nthz q f j : 0 < q -> reduced q f -> 0 <= nthz j f < q.
Proof.
  intros Hq H. destruct (Nat.lt_ge_cases j (length f)) as [L|L].
  - unfold reduced in H. rewrite Forall_forall in H. apply H. apply nth_In. exact L.
  - rewrite nthz_overflow by exact L. lia.
Qed.

Lemma veq_reduced_eq q n f g : 0 < q -> veq q n f g -> reduced q f -> reduced q g -> f = g.
Proof.
  intros Hq (Lf & Lg & E) Rf Rg. apply nthz_ext; [congruence|].
  intros j Hj. apply (cg_small q); try (apply reduced_nthz; assumption).
  apply E. congruence.
Qed.

Lemma veq_sym q n f g : veq q n f g -> veq q n g f.
Proof. intros (A & B & C). split; [auto|]. split; [auto|]. intros. symmetry. auto. Qed.
Lemma veq_trans q n f g h : veq q n f g -> veq q n g h -> veq q n f h.
Proof.
  intros (A & B & C) (A' & B' & C'). split; [auto|]. split; [auto|].
  intros. transitivity (nthz j g); auto.
Qed.
Lemma veq_refl q n f : length f = n -> veq q n f f.
Proof. intro H. split; [auto|]. split; [auto|]. reflexivity. Qed.

(** * Linear maps on coefficient lists *)
Definition comb (q : Z) (n : nat) (a b : Z) (f g h : list Z) : Prop :=
  length f = n /\ length g = n /\ length h = n /\
  forall j, (j < n)%nat -> cg q (nthz j h) (a * nthz j f + b * nthz j g).

Definition Lin (q : Z) (n : nat) (F : list Z -> list Z) : Prop :=
  forall a b f g h, comb q n a b f g h -> comb q n a b (F f) (F g) (F h).

Lemma Lin_comp q n F G : Lin q n F -> Lin q n G -> Lin q n (fun f => F (G f)).
Proof. intros HF HG a b f g h H. apply HF, HG, H. Qed.

Lemma Lin_id q n : Lin q n (fun f => f).
Proof. intros a b f g h H. exact H. Qed.

Lemma Lin_ext q n F G : (forall f, F f = G f) -> Lin q n F -> Lin q n G.
Proof. intros E H a b f g h C. rewrite <- !E. apply H, C. Qed.

Lemma Lin_length q n F f : Lin q n F -> length f = n -> length (F f) = n.
Proof.
  intros H L. destruct (H 1 0 f f f) as (L' & _); [|exact L'].
  repeat (split; [exact L|]). intros. apply cg_of_eq. ring.
Qed.

Lemma Lin_cong q n F f g : Lin q n F -> veq q n f g -> veq q n (F f) (F g).
Proof.
  intros H (Lf & Lg & E). destruct (H 1 0 f f g) as (A & _ & B & C).
  - repeat (split; [assumption|]). intros j Hj. rewrite <- (E j Hj). apply cg_of_eq. ring.
  - split; [exact A|]. split; [exact B|]. intros j Hj. rewrite (C j Hj). apply cg_of_eq. ring.
Qed.

Lemma Lin_comb_add q n F f g h : Lin q n F ->
  length f = n -> length g = n -> length h = n ->
  (forall j, (j < n)%nat -> cg q (nthz j h) (nthz j f + nthz j g)) ->
  forall j, (j < n)%nat -> cg q (nthz j (F h)) (nthz j (F f) + nthz j (F g)).
Proof.
  intros H Lf Lg Lh E j Hj. destruct (H 1 1 f g h) as (_ & _ & _ & C).
  - repeat (split; [assumption|]). intros i Hi. rewrite (E i Hi). apply cg_of_eq. ring.
  - rewrite (C j Hj). apply cg_of_eq. ring.
Qed.

Lemma Lin_comb_sub q n F f g h : Lin q n F ->
  length f = n -> length g = n -> length h = n ->
  (forall j, (j < n)%nat -> cg q (nthz j h) (nthz j f - nthz j g)) ->
  forall j, (j < n)%nat -> cg q (nthz j (F h)) (nthz j (F f) - nthz j (F g)).
Proof.
  intros H Lf Lg Lh E j Hj. destruct (H 1 (-1) f g h) as (_ & _ & _ & C).
  - repeat (split; [assumption|]). intros i Hi. rewrite (E i Hi). apply cg_of_eq. ring.
  - rewrite (C j Hj). apply cg_of_eq. ring.
Qed.

Lemma Lin_block q n (step : nat -> list Z -> list Z) le : forall st,
  (forall j, (st <= j < st + le)%nat -> Lin q n (step j)) -> Lin q n (block step st le).
Proof.
  unfold block. induction le as [|le IH]; intros st H; cbn [seq fold_left].
  - apply Lin_id.
  - apply (Lin_comp q n (fun f => fold_left (fun f j => step j f) (seq (S st) le) f) (step st)).
    + apply IH. intros. apply H. lia.
    + apply H. lia.
Qed.

Lemma blocks_snd step next le : forall n st i f f',
  snd (blocks step next n st le i f) = snd (blocks step next n st le i f').
Proof. induction n; intros; simpl; auto. Qed.

Lemma Lin_blocks q n0 (step : nat -> nat -> nat -> list Z -> list Z) next le : forall n st i,
  (forall i j, (st <= j)%nat -> (j + le < st + 2 * le * n)%nat -> Lin q n0 (step i le j)) ->
  Lin q n0 (fun f => fst (blocks step next n st le i f)).
Proof.
  induction n as [|n IH]; intros st i H; simpl.
  - apply Lin_id.
  - apply (Lin_comp q n0 (fun f => fst (blocks step next n (st + (le + (le + 0))) le (next i) f))
                        (block (step i le) st le)).
    + apply IH. intros. apply H; nia.
    + apply Lin_block. intros. apply H; nia.
Qed.

Lemma Lin_layers q n0 (step : nat -> nat -> nat -> list Z -> list Z) next les : forall i,
  (forall i le j, In le les -> (j + le < 2 * le * (Nat.div 256 (2 * le)))%nat -> Lin q n0 (step i le j)) ->
  Lin q n0 (layers step next les i).
Proof.
  induction les as [|le les IH]; intros i H; cbn [layers].
  - apply Lin_id.
  - set (i' := snd (blocks step next (Nat.div 256 (2 * le)) 0 le i [])).
    apply (Lin_ext q n0 (fun f => layers step next les i'
             (fst (blocks step next (Nat.div 256 (2 * le)) 0 le i f)))).
    + intro f. assert (E : snd (blocks step next (Nat.div 256 (2 * le)) 0 le i f) = i')
        by apply blocks_snd.
      destruct (blocks step next (Nat.div 256 (2 * le)) 0 le i f) as [f' i'']; cbn in E |- *.
      rewrite E. reflexivity.
    + apply (Lin_comp q n0 (layers step next les i')).
      * apply IH. intros. apply H; [right|]; assumption.
      * apply Lin_blocks. intros. apply H; [left; reflexivity|]. lia.
Qed.

(** Unit vectors. *)
Definition unit_vec (n k : nat) : list Z := map (fun j => if Nat.eqb j k then 1 else 0) (seq 0 n).

Lemma unit_vec_length n k : length (unit_vec n k) = n.
Proof. unfold unit_vec. rewrite map_length, seq_length. reflexivity. Qed.

Lemma unit_vec_nth n k j : (j < n)%nat -> nthz j (unit_vec n k) = if Nat.eqb j k then 1 else 0.
Proof. intro H. unfold unit_vec. apply nthz_map_seq. exact H. Qed.

(** A linear map is determined by its values on the unit vectors. *)
Lemma Lin_matrix q n F f j : Lin q n F -> length f = n -> (j < n)%nat ->
  cg q (nthz j (F f)) (zsum n (fun c => nthz c f * nthz j (F (unit_vec n c)))).
Proof.
  intros HF Lf Hj.
  set (tr := fun m => map (fun i => if Nat.ltb i m then nthz i f else 0) (seq 0 n)).
  assert (Lt : forall m, length (tr m) = n) by (intro; unfold tr; rewrite map_length, seq_length; auto).
  assert (Nt : forall m i, (i < n)%nat -> nthz i (tr m) = if Nat.ltb i m then nthz i f else 0)
    by (intros; unfold tr; apply nthz_map_seq; auto).
  assert (K : forall m, (m <= n)%nat ->
     cg q (nthz j (F (tr m))) (zsum m (fun c => nthz c f * nthz j (F (unit_vec n c))))).
  { induction m as [|m IH]; intro Hm; simpl.
    - destruct (HF 0 0 (tr O) (tr O) (tr O)) as (_ & _ & _ & C).
      + repeat (split; [apply Lt|]). intros i Hi. rewrite !Nt by lia. reflexivity.
      + rewrite (C j Hj). apply cg_of_eq. ring.
    - destruct (HF 1 (nthz m f) (tr m) (unit_vec n m) (tr (S m))) as (_ & _ & _ & C).
      + split; [apply Lt|]. split; [apply unit_vec_length|]. split; [apply Lt|].
        intros i Hi. rewrite !Nt, unit_vec_nth by lia. apply cg_of_eq.
        destruct (Nat.eqb_spec i m) as [->|N].
        * rewrite Nat.ltb_irrefl. destruct (Nat.ltb_spec m (S m)); [ring|lia].
        * destruct (Nat.ltb_spec i (S m)), (Nat.ltb_spec i m); try lia.
      + rewrite (C j Hj). rewrite IH by lia. apply cg_of_eq. ring. }
  specialize (K n (le_n n)). rewrite <- K.
  assert (V : veq q n f (tr n)).
  { split; [auto|]. split; [apply Lt|]. intros i Hi. rewrite Nt by auto.
    destruct (Nat.ltb_spec i n); [reflexivity|lia]. }
  destruct (Lin_cong q n F _ _ HF V) as (_ & _ & C). apply C. exact Hj.
Qed.

Lemma Lin_basis q n F G : Lin q n F -> Lin q n G ->
  (forall c, (c < n)%nat -> veq q n (F (unit_vec n c)) (G (unit_vec n c))) ->
  forall f, length f = n -> veq q n (F f) (G f).
Proof.
  intros HF HG H f Lf.
  split; [apply (Lin_length q n F f HF Lf)|]. split; [apply (Lin_length q n G f HG Lf)|].
  intros j Hj. rewrite (Lin_matrix q n F f j HF Lf Hj), (Lin_matrix q n G f j HG Lf Hj).
  apply zsum_cg. intros c Hc. destruct (H c Hc) as (_ & _ & E). rewrite (E j Hj). reflexivity.
Qed.

(** * Bit strings *)
Definition is_bit (b : Z) : Prop := b = 0 \/ b = 1.

Lemma bits_of_length d : forall a, length (bits_of d a) = d.
Proof. induction d; intro a; simpl; auto. Qed.

Lemma bits_of_bits d : forall a, Forall is_bit (bits_of d a).
Proof.
  induction d; intro a; cbn [bits_of]; constructor; auto.
  pose proof (Z.mod_pos_bound a 2). unfold is_bit. lia.
Qed.

Lemma from_bits_bound l : Forall is_bit l -> 0 <= from_bits l < 2 ^ Z.of_nat (length l).
Proof.
  induction 1 as [|b l Hb _ IH]; [simpl; lia|].
  cbn [from_bits length]. rewrite Nat2Z.inj_succ, Z.pow_succ_r by lia.
  destruct Hb; lia.
Qed.

Lemma from_bits_of d : forall a, from_bits (bits_of d a) = a mod 2 ^ Z.of_nat d.
Proof.
  induction d as [|d IH]; intro a; cbn [bits_of from_bits].
  - rewrite Z.mod_1_r. reflexivity.
  - rewrite IH, Nat2Z.inj_succ, Z.pow_succ_r by lia.
    rewrite Z.rem_mul_r by lia. ring.
Qed.

Lemma bits_of_from l : Forall is_bit l -> bits_of (length l) (from_bits l) = l.
Proof.
  induction 1 as [|b l Hb _ IH]; [reflexivity|].
  cbn [from_bits length bits_of].
  replace (b + 2 * from_bits l) with (from_bits l * 2 + b) by ring.
  assert (0 <= b < 2) by (destruct Hb; lia).
  rewrite Z.div_add_l, (Z.div_small b 2), Z.add_0_r, IH by lia.
  replace (from_bits l * 2 + b) with (b + from_bits l * 2) by ring.
  rewrite Z_mod_plus_full, Z.mod_small by lia. reflexivity.
Qed.

Lemma list8_ind (P : list Z -> Prop) :
  P [] ->
  (forall a b c d e f g h r, P r -> P (a :: b :: c :: d :: e :: f :: g :: h :: r)) ->
  forall n l, length l = (8 * n)%nat -> P l.
Proof.
  intros H0 H1. induction n as [|n IH]; intros l L.
  - destruct l; [exact H0|discriminate].
  - destruct l as [|a [|b [|c [|d [|e [|f [|g [|h r]]]]]]]]; simpl in L; try lia.
    apply H1, IH. lia.
Qed.

Lemma bits_to_bytes_ok n l : length l = (8 * n)%nat -> Forall is_bit l ->
  exists b, bits_to_bytes l = Ok b /\ bytes_to_bits b = l /\ length b = n /\ is_bytes b = true.
Proof.
  revert n. assert (K : forall n l, length l = (8 * n)%nat -> Forall is_bit l ->
    exists b, bits_to_bytes l = Ok b /\ bytes_to_bits b = l /\ is_bytes b = true).
  { intros n l0 L. revert L.
    apply (list8_ind (fun l => Forall is_bit l -> exists b, bits_to_bytes l = Ok b /\ bytes_to_bits b = l /\ is_bytes b = true)).
    - intros _. exists []. auto.
    - intros a b c d e f g h r IH F.
      assert (F8 : Forall is_bit [a;b;c;d;e;f;g;h] /\ Forall is_bit r).
      { change (a :: b :: c :: d :: e :: f :: g :: h :: r) with ([a;b;c;d;e;f;g;h] ++ r) in F.
        apply Forall_app in F. exact F. }
      destruct F8 as [F8 Fr]. destruct (IH Fr) as (bs & E1 & E2 & E3).
      pose proof (from_bits_bound _ F8) as B. change (2 ^ Z.of_nat (length [a;b;c;d;e;f;g;h])) with 256 in B.
      exists (from_bits [a;b;c;d;e;f;g;h] :: bs).
      assert (IB : is_byte (from_bits [a;b;c;d;e;f;g;h]) = true)
        by (unfold is_byte; apply andb_true_iff; split; [apply Z.leb_le|apply Z.ltb_lt]; lia).
      split; [|split].
      + cbn [bits_to_bytes]. rewrite IB, E1. reflexivity.
      + unfold bytes_to_bits in *. cbn [flat_map]. rewrite E2.
        pose proof (bits_of_from _ F8) as X. cbn [length] in X. rewrite X. reflexivity.
      + unfold is_bytes in *. cbn [forallb]. rewrite IB. exact E3. }
  intros n L F. destruct (K n l L F) as (b & E1 & E2 & E3). exists b.
  repeat (split; [assumption|]). split; [|exact E3].
  apply (f_equal (@length Z)) in E2. rewrite L in E2.
  assert (length (bytes_to_bits b) = (8 * length b)%nat).
  { clear. unfold bytes_to_bits. induction b; simpl; [reflexivity|].
    simpl in IHb. rewrite IHb. lia. }
  lia.
Qed.

Lemma bytes_to_bits_length b : length (bytes_to_bits b) = (8 * length b)%nat.
Proof.
  unfold bytes_to_bits. induction b; [reflexivity|].
  cbn [flat_map]. rewrite app_length, bits_of_length, IHb. simpl. lia.
Qed.

Lemma bytes_to_bits_bits b : Forall is_bit (bytes_to_bits b).
Proof.
  unfold bytes_to_bits. induction b; [constructor|].
  cbn [flat_map]. apply Forall_app. split; [apply bits_of_bits|exact IHb].
Qed.

Lemma bits_to_bytes_inv b : is_bytes b = true -> bits_to_bytes (bytes_to_bits b) = Ok b.
Proof.
  induction b as [|x b IH]; intro H; [reflexivity|].
  unfold is_bytes in H. cbn [forallb] in H. apply andb_true_iff in H as [Hx Hb].
  unfold bytes_to_bits. cbn [flat_map].
  change (flat_map (bits_of 8) b) with (bytes_to_bits b).
  pose proof (from_bits_of 8 x) as E. unfold is_byte in Hx.
  apply andb_true_iff in Hx as [H1 H2]. apply Z.leb_le in H1. apply Z.ltb_lt in H2.
  rewrite Z.mod_small in E by (simpl; lia). cbn [bits_of] in E |- *.
  cbn [app bits_to_bytes]. rewrite E. unfold is_byte.
  destruct (Z.leb_spec 0 x); [|lia]. destruct (Z.ltb_spec x 256); [|lia].
  cbn [andb]. rewrite IH by exact Hb. reflexivity.
Qed.

Lemma bits_to_bytes_bytes l : forall b, bits_to_bytes l = Ok b -> is_bytes b = true.
Proof.
  assert (K : forall n l b, (length l <= n)%nat -> bits_to_bytes l = Ok b -> is_bytes b = true).
  { induction n as [|n IH]; intros l0 b L E.
    - destruct l0; [|simpl in L; lia]. injection E as <-. reflexivity.
    - destruct l0 as [|a0 [|a1 [|a2 [|a3 [|a4 [|a5 [|a6 [|a7 r]]]]]]]]; try discriminate.
      + injection E as <-. reflexivity.
      + cbn [bits_to_bytes] in E. destruct (is_byte _) eqn:B; [|discriminate].
        destruct (bits_to_bytes r) eqn:R; [|discriminate]. injection E as <-.
        unfold is_bytes. cbn [forallb]. apply andb_true_iff. split; [exact B|].
        apply (IH r); [simpl in L; lia|exact R]. }
  intros b. apply (K (length l)). lia.
Qed.

Lemma chunks_concat d : forall ls r, Forall (fun c => length c = d) ls ->
  chunks (length ls) d (concat ls ++ r) = Ok ls.
Proof.
  induction ls as [|c ls IH]; intros r H; [reflexivity|].
  inversion_clear H as [|? ? Hc Hls]. cbn [length chunks concat].
  rewrite <- app_assoc, <- Hc, firstn_app, Nat.sub_diag, firstn_all, firstn_O, app_nil_r,
    Nat.ltb_irrefl, skipn_app, Nat.sub_diag, skipn_all. cbn [app skipn].
  rewrite Hc, IH by exact Hls. reflexivity.
Qed.

Lemma chunks_ok n d : forall l, (n * d <= length l)%nat ->
  exists cs, chunks n d l = Ok cs /\ length cs = n /\ Forall (fun c => length c = d) cs /\
             concat cs = firstn (n * d) l.
Proof.
  induction n as [|n IH]; intros l H.
  - exists []. simpl. auto.
  - cbn [chunks]. assert (L : length (firstn d l) = d) by (rewrite firstn_length; nia).
    rewrite L, Nat.ltb_irrefl.
    destruct (IH (skipn d l)) as (cs & E & Lc & F & C).
    { rewrite skipn_length. nia. }
    rewrite E. exists (firstn d l :: cs). split; [reflexivity|].
    split; [simpl; congruence|]. split; [constructor; assumption|].
    cbn [concat]. rewrite C. replace (S n * d)%nat with (d + n * d)%nat by lia.
    rewrite <- (firstn_skipn d (firstn (d + n * d) l)).
    rewrite firstn_firstn, skipn_firstn_comm.
    replace (Nat.min d (d + n * d))%nat with d by lia.
    replace (d + n * d - d)%nat with (n * d)%nat by lia. reflexivity.
Qed.

Lemma chunks_short n d : forall l, (length l < n * d)%nat -> chunks n d l = Err EIndexError.
Proof.
  induction n as [|n IH]; intros l H; [simpl in H; lia|].
  cbn [chunks]. rewrite firstn_length.
  destruct (Nat.ltb_spec (Nat.min d (length l)) d); [reflexivity|].
  rewrite IH; [reflexivity|]. rewrite skipn_length. nia.
Qed.

Lemma flat_map_concat_map' {A} (F : A -> list Z) l : flat_map F l = concat (map F l).
Proof. apply flat_map_concat_map. Qed.

(** * Error-raising comprehensions *)
Lemma mapM_ok_map {A B} (F : A -> result B) (G : A -> B) l :
  (forall x, In x l -> F x = Ok (G x)) -> mapM F l = Ok (map G l).
Proof.
  induction l as [|x l IH]; intro H; [reflexivity|]. simpl.
  rewrite (H x) by (left; reflexivity). simpl. rewrite IH by (intros; apply H; right; auto).
  reflexivity.
Qed.

Lemma mapM_ok_inv {A B} (F : A -> result B) l ys : mapM F l = Ok ys ->
  length ys = length l /\ forall i dA dB, (i < length l)%nat -> F (nth i l dA) = Ok (nth i ys dB).
Proof.
  revert ys. induction l as [|x l IH]; intros ys E; simpl in E.
  - injection E as <-. split; [reflexivity|]. intros. simpl in *. lia.
  - destruct (F x) eqn:Fx; [|discriminate]. simpl in E.
    destruct (mapM F l) eqn:M; [|discriminate]. injection E as <-.
    destruct (IH _ eq_refl) as [L N]. split; [simpl; congruence|].
    intros [|i] dA dB Hi; simpl; [exact Fx|]. apply N. simpl in Hi. lia.
Qed.

Lemma mapM_ext {A B} (F G : A -> result B) l : (forall x, In x l -> F x = G x) -> mapM F l = mapM G l.
Proof.
  induction l as [|x l IH]; intro H; [reflexivity|]. simpl.
  rewrite (H x) by (left; reflexivity). rewrite IH by (intros; apply H; right; auto). reflexivity.
Qed.

(** * Slices *)
Lemma slice_app_l {A} (a b : list A) n : length a = n -> slice 0 n (a ++ b) = a.
Proof.
  intros <-. unfold slice. rewrite Nat.sub_0_r. cbn [skipn].
  rewrite firstn_app, Nat.sub_diag, firstn_all, firstn_O, app_nil_r. reflexivity.
Qed.
Lemma slice_app_r {A} (a b : list A) n i j : length a = n ->
  slice (n + i) (n + j) (a ++ b) = slice i j b.
Proof.
  intros <-. unfold slice. replace (length a + j - (length a + i))%nat with (j - i)%nat by lia.
  f_equal. rewrite skipn_app. rewrite skipn_all2 by lia. cbn [app]. f_equal. lia.
Qed.
Lemma slice_all {A} (a : list A) n : length a = n -> slice 0 n a = a.
Proof. intro H. rewrite <- (app_nil_r a) at 1. apply slice_app_l. exact H. Qed.
Lemma slice_length {A} (a : list A) i j : (i <= j)%nat -> (j <= length a)%nat ->
  length (slice i j a) = (j - i)%nat.
Proof. intros H1 H2. unfold slice. rewrite firstn_length, skipn_length. lia. Qed.

Lemma slice_concat {A} d : forall (ls : list (list A)) r i,
  Forall (fun c => length c = d) ls -> (i < length ls)%nat ->
  slice (d * i) (d * (i + 1)) (concat ls ++ r) = nth i ls [].
Proof.
  induction ls as [|c ls IH]; intros r i F Hi; [simpl in Hi; lia|].
  inversion_clear F as [|? ? Hc Hls]. cbn [concat]. rewrite <- app_assoc.
  destruct i as [|i].
  - replace (d * 0)%nat with 0%nat by lia. replace (d * (0 + 1))%nat with d by lia.
    apply slice_app_l. exact Hc.
  - replace (d * S i)%nat with (d + d * i)%nat by lia.
    replace (d * (S i + 1))%nat with (d + d * (i + 1))%nat by lia.
    rewrite slice_app_r by exact Hc. apply IH; [exact Hls|]. simpl in Hi. lia.
Qed.

Lemma is_bytes_app a b : is_bytes (a ++ b) = is_bytes a && is_bytes b.
Proof. unfold is_bytes. apply forallb_app. Qed.
