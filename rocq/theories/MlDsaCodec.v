(** Bit packing and hint packing of the ML-DSA model. *)
From Verif Require Export MlDsaNtt.
From Coq Require Import Sorting.Sorted.
Local Open Scope Z_scope.

Lemma bit_length_bound b : 0 <= b -> b < 2 ^ Z.of_nat (bit_length b).
Proof.
  intro H. unfold bit_length. destruct (Z.eqb_spec b 0) as [->|N]; [reflexivity|].
  rewrite Z.abs_eq, Nat2Z.inj_succ, Z2Nat.id by (try apply Z.log2_nonneg; lia).
  apply Z.log2_spec. lia.
Qed.

(** * Integers and bits *)
Lemma skipn_cons_nth n (l : list Z) : (n < length l)%nat -> skipn n l = nthz n l :: skipn (S n) l.
Proof.
  revert l. induction n as [|n IH]; intros [|x l] H; simpl in H; try lia; [reflexivity|].
  cbn [skipn]. rewrite (IH l) by lia. reflexivity.
Qed.

Lemma horner y alpha : (alpha <= length y)%nat -> forall m, (m <= alpha)%nat ->
  fold_left (fun x i => 2 * x + nthz (alpha - i) y) (seq 1 m) 0 = from_bits (firstn m (skipn (alpha - m) y)).
Proof.
  intros L m. induction m as [|m IH]; intro H; [reflexivity|].
  rewrite seq_S, fold_left_app, IH by lia. cbn [fold_left].
  rewrite (skipn_cons_nth (alpha - S m) y) by lia. cbn [firstn from_bits].
  replace (S (alpha - S m)) with (alpha - m)%nat by lia. replace (1 + m)%nat with (S m) by lia. ring.
Qed.

Lemma bits_to_integer_ok y alpha : (alpha <= length y)%nat ->
  bits_to_integer y alpha = Ok (from_bits (firstn alpha y)).
Proof.
  intro L. unfold bits_to_integer. destruct (Nat.ltb_spec (length y) alpha); [lia|].
  rewrite (horner y alpha L alpha) by lia. rewrite Nat.sub_diag. reflexivity.
Qed.

Lemma integer_bits_inverse x alpha : bits_to_integer (integer_to_bits x alpha) alpha = Ok (x mod 2 ^ Z.of_nat alpha).
Proof.
  unfold integer_to_bits. rewrite bits_to_integer_ok by (rewrite bits_of_length; lia).
  rewrite firstn_all2 by (rewrite bits_of_length; lia). rewrite from_bits_of. reflexivity.
Qed.

Lemma bits_integer_inverse y : Forall is_bit y ->
  exists x, bits_to_integer y (length y) = Ok x /\ 0 <= x < 2 ^ Z.of_nat (length y) /\ integer_to_bits x (length y) = y.
Proof.
  intro B. exists (from_bits y). rewrite bits_to_integer_ok, firstn_all by lia.
  split; [reflexivity|]. split; [apply from_bits_bound; exact B|]. apply bits_of_from. exact B.
Qed.

(** * Packing *)
Definition groups (c : nat) (z : list Z) (n : nat) : result (list Z) :=
  mapM (fun i => bits_to_integer (slice (i * c) ((i + 1) * c) z) c) (seq 0 n).

Lemma map_nth_seq {A} (l : list A) d : map (fun i => nth i l d) (seq 0 (length l)) = l.
Proof.
  apply (nth_ext _ _ d d).
  - rewrite map_length, seq_length. reflexivity.
  - intros n H. rewrite map_length, seq_length in H. apply (nth_map_seq (fun i => nth i l d) (length l) n d H).
Qed.

Lemma groups_concat c ls r : Forall (fun x => length x = c) ls ->
  groups c (concat ls ++ r) (length ls) = Ok (map from_bits ls).
Proof.
  intro F. unfold groups.
  rewrite (mapM_ok_map _ (fun i => from_bits (nth i ls []))).
  - f_equal. rewrite <- (map_nth_seq ls []) at 2. rewrite map_map. reflexivity.
  - intros i Hi. apply in_seq in Hi. rewrite !(Nat.mul_comm _ c).
    rewrite slice_concat by (assumption || lia).
    assert (L : length (nth i ls []) = c).
    { rewrite Forall_forall in F. apply F. apply nth_In. lia. }
    rewrite bits_to_integer_ok by lia. rewrite <- L, firstn_all. reflexivity.
Qed.

Lemma mapM_err_one {A B} (F : A -> result B) e l : (exists x, In x l /\ F x = Err e) ->
  (forall x e', In x l -> F x = Err e' -> e' = e) -> mapM F l = Err e.
Proof.
  induction l as [|x l IH]; intros (y & Hin & E) H; [destruct Hin|].
  cbn [mapM]. destruct (F x) as [v|e'] eqn:Fx.
  - destruct Hin as [->|Hin]; [congruence|]. cbn [bind].
    rewrite IH; [reflexivity|exists y; auto|]. intros; eapply H; [right|]; eassumption.
  - cbn [bind]. f_equal. apply (H x e'); [left; reflexivity|exact Fx].
Qed.

Lemma groups_short c z n : (length z < n * c)%nat -> groups c z n = Err EIndexError.
Proof.
  intro H. unfold groups. destruct n as [|n]; [simpl in H; lia|]. apply mapM_err_one.
  - exists n. split; [apply in_seq; lia|]. unfold bits_to_integer, slice.
    rewrite firstn_length, skipn_length.
    destruct (Nat.ltb_spec (Nat.min ((n + 1) * c - n * c) (length z - n * c)) c); [reflexivity|nia].
  - intros x e _. unfold bits_to_integer. destruct (_ <? _)%nat; congruence.
Qed.

Lemma groups_ok c z n : (n * c <= length z)%nat -> exists cs,
  groups c z n = Ok (map from_bits cs) /\ length cs = n /\ Forall (fun x => length x = c) cs /\ concat cs = firstn (n * c) z.
Proof.
  intro H. destruct (chunks_ok n c z H) as (cs & _ & L & F & C). exists cs.
  split; [|auto]. rewrite <- (firstn_skipn (n * c) z), <- C, <- L. apply groups_concat. exact F.
Qed.

Definition packs (c : nat) (g : Z -> Z) (w : list Z) : result bytes :=
  bits_to_bytes (flat_map (fun x => integer_to_bits (g x) c) w).

Lemma flat_bits_length c g (w : list Z) : length (flat_map (fun x => bits_of c (g x)) w) = (length w * c)%nat.
Proof. induction w as [|x w IH]; [reflexivity|]. cbn [flat_map length]. rewrite app_length, bits_of_length, IH. reflexivity. Qed.
Lemma flat_bits_bits c g (w : list Z) : Forall is_bit (flat_map (fun x => bits_of c (g x)) w).
Proof. induction w as [|x w IH]; [constructor|]. cbn [flat_map]. apply Forall_app. split; [apply bits_of_bits|exact IH]. Qed.

Lemma packs_ok c g w : length w = 256%nat -> exists b,
  packs c g w = Ok b /\ length b = (32 * c)%nat /\ is_bytes b = true /\
  groups c (bytes_to_bits b) 256 = Ok (map (fun x => g x mod 2 ^ Z.of_nat c) w).
Proof.
  intro L. unfold packs, integer_to_bits.
  destruct (bits_to_bytes_ok (32 * c) (flat_map (fun x => bits_of c (g x)) w)) as (b & E1 & E2 & E3 & E4).
  - rewrite flat_bits_length. lia.
  - apply flat_bits_bits.
  - exists b. split; [exact E1|]. split; [exact E3|]. split; [exact E4|].
    rewrite E2, flat_map_concat_map, <- (app_nil_r (concat _)).
    replace 256%nat with (length (map (fun x => bits_of c (g x)) w)) by (rewrite map_length; exact L).
    rewrite groups_concat by (apply Forall_map, Forall_forall; intros; apply bits_of_length).
    rewrite map_map. f_equal. apply map_ext. intro. apply from_bits_of.
Qed.

(** Unpacking a string of the right length and packing again gives it back. *)
Lemma groups_packs c b : length b = (32 * c)%nat -> is_bytes b = true -> exists w,
  groups c (bytes_to_bits b) 256 = Ok w /\ length w = 256%nat /\
  Forall (fun x => 0 <= x < 2 ^ Z.of_nat c) w /\
  forall g f, (forall x, g (f x) = x) -> packs c g (map f w) = Ok b.
Proof.
  intros L B. destruct (groups_ok c (bytes_to_bits b) 256) as (cs & E & Lc & F & C).
  { rewrite bytes_to_bits_length. lia. }
  exists (map from_bits cs). split; [exact E|]. split; [rewrite map_length; exact Lc|].
  assert (Fb : Forall (Forall is_bit) cs).
  { apply Forall_forall. intros x Hx. apply Forall_forall. intros y Hy.
    pose proof (bytes_to_bits_bits b) as Bb. rewrite Forall_forall in Bb. apply Bb.
    assert (I : In y (concat cs)) by (apply in_concat; exists x; auto).
    rewrite C in I. rewrite <- (firstn_skipn (256 * c) (bytes_to_bits b)). apply in_or_app. left. exact I. }
  split.
  - apply Forall_map, Forall_forall. intros x Hx. rewrite Forall_forall in F, Fb.
    rewrite <- (F x Hx). apply from_bits_bound. apply Fb. exact Hx.
  - intros g f Hgf. unfold packs, integer_to_bits. rewrite map_map, flat_map_concat_map, map_map.
    assert (Em : map (fun x => bits_of c (g (f (from_bits x)))) cs = cs).
    { rewrite <- map_id. apply map_ext_in. intros x Hx. rewrite Hgf. rewrite Forall_forall in F, Fb.
      rewrite <- (F x Hx). apply bits_of_from. apply Fb. exact Hx. }
    rewrite Em, C, firstn_all2 by (rewrite bytes_to_bits_length; lia).
    apply bits_to_bytes_inv. exact B.
Qed.

(** * simple_bit_pack *)
Lemma simple_bit_pack_packs w b : length w = 256%nat -> simple_bit_pack w b = packs (bit_length b) (fun x => x) w.
Proof.
  intro L. unfold simple_bit_pack, take_exact. rewrite L, Nat.ltb_irrefl. cbn [bind].
  rewrite <- L, firstn_all. reflexivity.
Qed.
Lemma simple_bit_unpack_groups v b : simple_bit_unpack v b = groups (bit_length b) (bytes_to_bits v) 256.
Proof. reflexivity. Qed.

Lemma map_mod_small m f : Forall (fun x => 0 <= x < m) f -> map (fun x => x mod m) f = f.
Proof.
  induction 1 as [|x f Hx _ IH]; [reflexivity|]. cbn [map]. rewrite IH, Z.mod_small by exact Hx. reflexivity.
Qed.

Lemma simple_pack_ok w b : length w = 256%nat -> Forall (fun x => 0 <= x <= b) w -> exists v,
  simple_bit_pack w b = Ok v /\ length v = (32 * bit_length b)%nat /\ is_bytes v = true /\ simple_bit_unpack v b = Ok w.
Proof.
  intros L F. rewrite simple_bit_pack_packs by exact L.
  destruct (packs_ok (bit_length b) (fun x => x) w L) as (v & E1 & E2 & E3 & E4).
  exists v. repeat (split; [assumption|]). rewrite simple_bit_unpack_groups, E4. f_equal.
  apply map_mod_small. apply Forall_forall. intros x Hx. rewrite Forall_forall in F. specialize (F x Hx).
  pose proof (bit_length_bound b ltac:(lia)). lia.
Qed.

Lemma simple_pack_total w b : length w = 256%nat -> exists v,
  simple_bit_pack w b = Ok v /\ length v = (32 * bit_length b)%nat /\ is_bytes v = true.
Proof.
  intro L. rewrite simple_bit_pack_packs by exact L.
  destruct (packs_ok (bit_length b) (fun x => x) w L) as (v & E1 & E2 & E3 & _). exists v. auto.
Qed.

Lemma simple_unpack_ok v b : length v = (32 * bit_length b)%nat -> is_bytes v = true -> exists w,
  simple_bit_unpack v b = Ok w /\ length w = 256%nat /\ Forall (fun x => 0 <= x < 2 ^ Z.of_nat (bit_length b)) w /\
  simple_bit_pack w b = Ok v.
Proof.
  intros L B. destruct (groups_packs _ _ L B) as (w & E & Lw & F & P). exists w.
  rewrite simple_bit_unpack_groups, simple_bit_pack_packs by exact Lw.
  repeat (split; [assumption|]). rewrite <- (map_id w). apply (P (fun x => x) (fun x => x)). reflexivity.
Qed.

Lemma simple_unpack_short v b : (length v < 32 * bit_length b)%nat -> simple_bit_unpack v b = Err EIndexError.
Proof. intro L. rewrite simple_bit_unpack_groups. apply groups_short. rewrite bytes_to_bits_length. lia. Qed.

(** * bit_pack *)
Lemma bit_pack_packs w a b : bit_pack w a b = packs (bit_length (a + b)) (fun x => b - x) w.
Proof. reflexivity. Qed.

Lemma mapM_bind {A} (F : nat -> result Z) (G : Z -> A) l :
  mapM (fun i => let! x := F i in Ok (G x)) l = let! ys := mapM F l in Ok (map G ys).
Proof.
  induction l as [|i l IH]; [reflexivity|]. cbn [mapM]. destruct (F i); cbn [bind]; [|reflexivity].
  rewrite IH. destruct (mapM F l); reflexivity.
Qed.
Lemma bit_unpack_groups v a b :
  bit_unpack v a b = let! ys := groups (bit_length (a + b)) (bytes_to_bits v) 256 in Ok (map (fun x => b - x) ys).
Proof. unfold bit_unpack, groups. apply mapM_bind. Qed.

Lemma bit_pack_ok w a b : length w = 256%nat -> Forall (fun x => - a <= x <= b) w -> exists v,
  bit_pack w a b = Ok v /\ length v = (32 * bit_length (a + b))%nat /\ is_bytes v = true /\ bit_unpack v a b = Ok w.
Proof.
  intros L F. rewrite bit_pack_packs.
  destruct (packs_ok (bit_length (a + b)) (fun x => b - x) w L) as (v & E1 & E2 & E3 & E4).
  exists v. repeat (split; [assumption|]). rewrite bit_unpack_groups, E4. cbn [bind]. f_equal.
  rewrite map_map. rewrite <- (map_id w) at 2. apply map_ext_in. intros x Hx.
  rewrite Forall_forall in F. specialize (F x Hx).
  pose proof (bit_length_bound (a + b) ltac:(lia)). rewrite Z.mod_small by lia. ring.
Qed.

Lemma bit_unpack_ok v a b : length v = (32 * bit_length (a + b))%nat -> is_bytes v = true -> exists w,
  bit_unpack v a b = Ok w /\ length w = 256%nat /\ Forall (fun x => b - 2 ^ Z.of_nat (bit_length (a + b)) < x <= b) w /\
  bit_pack w a b = Ok v.
Proof.
  intros L B. destruct (groups_packs _ _ L B) as (w & E & Lw & F & P). exists (map (fun x => b - x) w).
  rewrite bit_unpack_groups, E, bit_pack_packs, map_length. cbn [bind].
  split; [reflexivity|]. split; [exact Lw|]. split.
  - apply Forall_map. apply Forall_forall. intros x Hx. rewrite Forall_forall in F. specialize (F x Hx). lia.
  - apply P. intro. ring.
Qed.

Lemma bit_unpack_short v a b : (length v < 32 * bit_length (a + b))%nat -> bit_unpack v a b = Err EIndexError.
Proof.
  intro L. rewrite bit_unpack_groups, groups_short; [reflexivity|]. rewrite bytes_to_bits_length. lia.
Qed.
