(** The product in Z_q[X]/(X^n+1) is bilinear. *)
From Verif Require Export LatFacts.
From Coq Require Import Setoid Morphisms.
Local Open Scope Z_scope.

Section Ring.
Variable q : Z.
Hypothesis q_pos : 0 < q.
Variable n : nat.

Lemma ring_mul_length f g : length (ring_mul q n f g) = n.
Proof. unfold ring_mul. rewrite map_length, seq_length. reflexivity. Qed.

Lemma ring_mul_nth f g c : (c < n)%nat ->
  cg q (nthz c (ring_mul q n f g))
       (zsum n (fun i => nthz i f * (if (i <=? c)%nat then nthz (c - i) g else - nthz (n + c - i) g))).
Proof. intro H. unfold ring_mul. rewrite nthz_map_seq by exact H. rewrite cg_mod by lia. reflexivity. Qed.

Lemma ring_mul_reduced f g : reduced q (ring_mul q n f g).
Proof.
  unfold ring_mul, reduced. apply Forall_map. apply Forall_forall. intros. apply Z.mod_pos_bound. lia.
Qed.

Lemma ring_mul_Lin_l g : Lin q n (fun f => ring_mul q n f g).
Proof.
  intros a b f1 f2 h (L1 & L2 & L3 & E).
  split; [apply ring_mul_length|]. split; [apply ring_mul_length|]. split; [apply ring_mul_length|].
  intros c Hc. rewrite !ring_mul_nth by exact Hc.
  rewrite <- !zsum_scale, <- zsum_add. apply zsum_cg. intros i Hi.
  rewrite (E i Hi). apply cg_of_eq. ring.
Qed.

Lemma ring_mul_Lin_r f : Lin q n (fun g => ring_mul q n f g).
Proof.
  intros a b f1 f2 h (L1 & L2 & L3 & E).
  split; [apply ring_mul_length|]. split; [apply ring_mul_length|]. split; [apply ring_mul_length|].
  intros c Hc. rewrite !ring_mul_nth by exact Hc.
  rewrite <- !zsum_scale, <- zsum_add. apply zsum_cg. intros i Hi.
  destruct (Nat.leb_spec i c).
  - rewrite (E (c - i)%nat) by lia. apply cg_of_eq. ring.
  - rewrite (E (n + c - i)%nat) by lia. apply cg_of_eq. ring.
Qed.

(** Product of monomials. *)
Lemma ring_mul_unit a b : (a < n)%nat -> (b < n)%nat -> forall c, (c < n)%nat ->
  cg q (nthz c (ring_mul q n (unit_vec n a) (unit_vec n b)))
       (if (a + b <? n)%nat then nthz c (unit_vec n (a + b)) else - nthz c (unit_vec n (a + b - n))).
Proof.
  intros Ha Hb c Hc. rewrite ring_mul_nth by exact Hc. apply cg_of_eq.
  rewrite (zsum_single n a).
  2: exact Ha.
  2: { intros i Hi N. rewrite (unit_vec_nth n a i Hi). destruct (Nat.eqb_spec i a); [contradiction|ring]. }
  cbv beta.
  rewrite (unit_vec_nth n a a Ha), Nat.eqb_refl.
  destruct (Nat.leb_spec a c) as [L|L].
  - rewrite (unit_vec_nth n b (c - a)) by lia.
    destruct (Nat.ltb_spec (a + b) n) as [L2|L2].
    + rewrite (unit_vec_nth n (a + b) c Hc).
      destruct (Nat.eqb_spec (c - a) b), (Nat.eqb_spec c (a + b)); try lia.
    + rewrite (unit_vec_nth n (a + b - n) c Hc).
      destruct (Nat.eqb_spec (c - a) b), (Nat.eqb_spec c (a + b - n)); try lia.
  - rewrite (unit_vec_nth n b (n + c - a)) by lia.
    destruct (Nat.ltb_spec (a + b) n) as [L2|L2].
    + rewrite (unit_vec_nth n (a + b) c Hc).
      destruct (Nat.eqb_spec (n + c - a) b), (Nat.eqb_spec c (a + b)); try lia.
    + rewrite (unit_vec_nth n (a + b - n) c Hc).
      destruct (Nat.eqb_spec (n + c - a) b), (Nat.eqb_spec c (a + b - n)); try lia.
Qed.

(** A product computed through a transform [T] by a pointwise bilinear product
    [M] equals [T] of the ring product once it does so on monomials. *)
Lemma transform_mul (T : list Z -> list Z) (M : list Z -> list Z -> list Z) :
  Lin q n T -> (forall g, Lin q n (fun f => M f g)) -> (forall f, Lin q n (fun g => M f g)) ->
  (forall a b, (a < n)%nat -> (b < n)%nat -> forall c, (c < n)%nat ->
     cg q (nthz c (M (T (unit_vec n a)) (T (unit_vec n b))))
          (if (a + b <? n)%nat then nthz c (T (unit_vec n (a + b)))
           else - nthz c (T (unit_vec n (a + b - n))))) ->
  forall f g, length f = n -> length g = n ->
  veq q n (M (T f) (T g)) (T (ring_mul q n f g)).
Proof.
  intros LT ML MR HB f g Lf Lg.
  apply (Lin_basis q n (fun f => M (T f) (T g)) (fun f => T (ring_mul q n f g))); [| | |exact Lf].
  { apply (Lin_comp q n (fun f => M f (T g)) T); auto. }
  { apply (Lin_comp q n T (fun f => ring_mul q n f g)); [auto|]. apply ring_mul_Lin_l. }
  intros a Ha.
  apply (Lin_basis q n (fun g => M (T (unit_vec n a)) (T g)) (fun g => T (ring_mul q n (unit_vec n a) g)));
    [| | |exact Lg].
  { apply (Lin_comp q n (fun g => M (T (unit_vec n a)) g) T); auto. }
  { apply (Lin_comp q n T (fun g => ring_mul q n (unit_vec n a) g)); [auto|]. apply ring_mul_Lin_r. }
  intros b Hb.
  assert (LTu : forall f, length f = n -> length (T f) = n) by (intros; apply (Lin_length q n T); auto).
  split. { apply (Lin_length q n (fun f => M f (T (unit_vec n b)))); [apply ML|].
           apply LTu, unit_vec_length. }
  split. { apply LTu, ring_mul_length. }
  intros c Hc. rewrite (HB a b Ha Hb c Hc).
  set (u := if (a + b <? n)%nat then unit_vec n (a + b) else unit_vec n (a + b - n)).
  set (s := if (a + b <? n)%nat then 1 else -1).
  assert (Lu : length u = n) by (unfold u; destruct (a + b <? n)%nat; apply unit_vec_length).
  destruct (LT s 0 u u (ring_mul q n (unit_vec n a) (unit_vec n b))) as (_ & _ & _ & C).
  - split; [exact Lu|]. split; [exact Lu|]. split; [apply ring_mul_length|].
    intros j Hj. rewrite (ring_mul_unit a b Ha Hb j Hj). unfold s, u.
    destruct (a + b <? n)%nat; apply cg_of_eq; ring.
  - rewrite (C c Hc). unfold s, u. destruct (a + b <? n)%nat; apply cg_of_eq; ring.
Qed.
End Ring.
