(** The ring of ML-DSA and the transform-domain products of the model. *)
From Verif Require Export MlDsaRound LatRing.
From Coq Require Import Setoid Morphisms.
Local Open Scope Z_scope.
Local Opaque ntt ntt_inverse mul_ntt.

Lemma Lin_zsum (F : list Z -> list Z) n (f : nat -> list Z) : Lin q 256 F ->
  (forall j, (j < n)%nat -> length (f j) = 256%nat) ->
  forall h, length h = 256%nat ->
  (forall c, (c < 256)%nat -> cg q (nthz c h) (zsum n (fun j => nthz c (f j)))) ->
  forall c, (c < 256)%nat -> cg q (nthz c (F h)) (zsum n (fun j => nthz c (F (f j)))).
Proof.
  intro HF. induction n as [|n IH]; intros Lf h Lh E c Hc.
  - simpl in *. destruct (HF 0 0 h h h) as (_ & _ & _ & C).
    + repeat (split; [exact Lh|]). intros j Hj. rewrite (E j Hj). apply cg_of_eq. ring.
    + rewrite (C c Hc). apply cg_of_eq. ring.
  - cbn [zsum].
    set (h' := map (fun c => zsum n (fun j => nthz c (f j))) (seq 0 256)).
    assert (Lh' : length h' = 256%nat) by (unfold h'; rewrite map_length, seq_length; reflexivity).
    assert (Nh' : forall c, (c < 256)%nat -> nthz c h' = zsum n (fun j => nthz c (f j)))
      by (intros; unfold h'; apply (nthz_map_seq (fun c => zsum n (fun j => nthz c (f j)))); assumption).
    rewrite (Lin_comb_add q 256 F h' (f n) h HF Lh') ; auto.
    + rewrite (IH (fun j Hj => Lf j (Nat.lt_lt_succ_r _ _ Hj)) h' Lh'); [reflexivity| |exact Hc].
      intros c' Hc'. rewrite Nh' by exact Hc'. reflexivity.
    + intros c' Hc'. rewrite (E c' Hc'). cbn [zsum]. rewrite Nh' by exact Hc'. reflexivity.
Qed.

Lemma rmul_q f g : rmul f g = ring_mul q 256 f g. Proof. unfold rmul. rewrite <- q_val. reflexivity. Qed.
Lemma rmul_length f g : length (rmul f g) = 256%nat. Proof. rewrite rmul_q. apply ring_mul_length. Qed.
Lemma rmul_reduced f g : reduced q (rmul f g). Proof. rewrite rmul_q. apply ring_mul_reduced. exact q_pos. Qed.
Lemma radd_length f g : length (radd f g) = 256%nat.
Proof. unfold radd. rewrite map_length, seq_length. reflexivity. Qed.
Lemma radd_nth f g c : (c < 256)%nat -> cg q (nthz c (radd f g)) (nthz c f + nthz c g).
Proof.
  intro H. unfold radd. rewrite (nthz_map_seq (fun c => (coeff c f + coeff c g) mod 8380417)) by exact H.
  rewrite <- q_val. cgm. reflexivity.
Qed.
Lemma radd_reduced f g : reduced q (radd f g).
Proof. apply Forall_map, Forall_forall. intros. rewrite <- q_val. apply Z.mod_pos_bound, q_pos. Qed.
Lemma rsub_length f g : length (rsub f g) = 256%nat.
Proof. unfold rsub. rewrite map_length, seq_length. reflexivity. Qed.
Lemma rsub_nth f g c : (c < 256)%nat -> cg q (nthz c (rsub f g)) (nthz c f - nthz c g).
Proof.
  intro H. unfold rsub. rewrite (nthz_map_seq (fun c => (coeff c f - coeff c g) mod 8380417)) by exact H.
  rewrite <- q_val. cgm. reflexivity.
Qed.
Lemma rsub_reduced f g : reduced q (rsub f g).
Proof. apply Forall_map, Forall_forall. intros. rewrite <- q_val. apply Z.mod_pos_bound, q_pos. Qed.
Lemma rsum_length n f : length (rsum n f) = 256%nat.
Proof. destruct n; [apply repeat_length|apply radd_length]. Qed.
Lemma rsum_nth n f c : (c < 256)%nat -> cg q (nthz c (rsum n f)) (zsum n (fun i => nthz c (f i))).
Proof.
  intro H. induction n as [|n IH].
  - cbn [rsum zsum]. unfold nthz. rewrite nth_repeat. reflexivity.
  - cbn [rsum zsum]. rewrite radd_nth by exact H. rewrite IH. reflexivity.
Qed.
Lemma rsum_reduced n f : reduced q (rsum n f).
Proof.
  destruct n; [|apply radd_reduced]. apply Forall_forall. intros x Hx. apply repeat_spec in Hx. subst.
  pose proof q_pos. lia.
Qed.

Lemma red_eq f g : length f = 256%nat -> length g = 256%nat -> reduced q f -> reduced q g ->
  (forall c, (c < 256)%nat -> cg q (nthz c f) (nthz c g)) -> f = g.
Proof.
  intros Lf Lg Rf Rg E. apply (veq_reduced_eq q 256); [exact q_pos| |exact Rf|exact Rg].
  split; [exact Lf|]. split; [exact Lg|exact E].
Qed.

Lemma rmul_Lin_r f : Lin q 256 (fun g => rmul f g).
Proof. eapply Lin_ext; [|apply ring_mul_Lin_r; exact q_pos]. intro. symmetry. apply rmul_q. Qed.
Lemma rmul_Lin_l g : Lin q 256 (fun f => rmul f g).
Proof. eapply Lin_ext; [|apply ring_mul_Lin_l; exact q_pos]. intro. symmetry. apply rmul_q. Qed.

(** * padd and psub *)
Lemma padd_radd f g : length f = 256%nat -> padd f g = radd f g.
Proof. intro L. unfold padd, radd. rewrite L, <- q_val. reflexivity. Qed.
Lemma psub_rsub f g : length f = 256%nat -> psub f g = rsub f g.
Proof. intro L. unfold psub, rsub. rewrite L, <- q_val. reflexivity. Qed.

(** * Transforms of products *)
Lemma mul_ntt_cong f f' g g' : veq q 256 f f' -> veq q 256 g g' -> mul_ntt f g = mul_ntt f' g'.
Proof.
  intros (A1 & A2 & A3) (B1 & B2 & B3). apply red_eq; try apply mul_ntt_length; try apply mul_ntt_reduced.
  intros c Hc. rewrite !mul_ntt_nth by exact Hc. cgm. rewrite A3, B3 by exact Hc. reflexivity.
Qed.
Lemma mul_ntt_assoc f g h : mul_ntt (mul_ntt f g) h = mul_ntt f (mul_ntt g h).
Proof.
  apply red_eq; try apply mul_ntt_length; try apply mul_ntt_reduced.
  intros c Hc. rewrite (mul_ntt_nth (mul_ntt f g)), (mul_ntt_nth f (mul_ntt g h)) by exact Hc.
  rewrite (mul_ntt_nth f g), (mul_ntt_nth g h) by exact Hc. cgm. apply cg_of_eq. ring.
Qed.
Lemma mul_ntt_comm f g : mul_ntt f g = mul_ntt g f.
Proof.
  apply red_eq; try apply mul_ntt_length; try apply mul_ntt_reduced.
  intros c Hc. rewrite !mul_ntt_nth by exact Hc. cgm. apply cg_of_eq. ring.
Qed.

Lemma rmul_intt f g : length f = 256%nat -> length g = 256%nat ->
  ntt_inverse (mul_ntt (ntt f) (ntt g)) = rmul f g.
Proof. intros. rewrite rmul_q. apply intt_mul; assumption. Qed.

Lemma ntt_rmul f g : length f = 256%nat -> length g = 256%nat -> ntt (rmul f g) = mul_ntt (ntt f) (ntt g).
Proof.
  intros Lf Lg. symmetry. rewrite rmul_q. apply (veq_reduced_eq q 256).
  - exact q_pos.
  - apply ntt_mul; assumption.
  - apply mul_ntt_reduced.
  - apply ntt_reduced. rewrite <- rmul_q. apply rmul_reduced.
Qed.
Lemma rmul_comm f g : length f = 256%nat -> length g = 256%nat -> rmul f g = rmul g f.
Proof. intros. rewrite <- !rmul_intt by assumption. f_equal. apply mul_ntt_comm. Qed.
Lemma rmul_assoc f g h : length f = 256%nat -> length g = 256%nat -> length h = 256%nat ->
  rmul (rmul f g) h = rmul f (rmul g h).
Proof.
  intros. rewrite <- (rmul_intt (rmul f g)), <- (rmul_intt f (rmul g h)) by (assumption || apply rmul_length).
  rewrite !ntt_rmul by assumption. f_equal. apply mul_ntt_assoc.
Qed.
Lemma rmul_exchange a c s : length a = 256%nat -> length c = 256%nat -> length s = 256%nat ->
  rmul a (rmul c s) = rmul c (rmul a s).
Proof. intros. rewrite <- !rmul_assoc by assumption. rewrite (rmul_comm a c) by assumption. reflexivity. Qed.

(** * Rows of matrix_vector_ntt *)
Definition row (n : nat) (f g : nat -> list Z) : list Z :=
  fold_left (fun w j => padd w (mul_ntt (f j) (g j))) (seq 0 n) zero_poly.

Lemma row_S n f g : row (S n) f g = padd (row n f g) (mul_ntt (f n) (g n)).
Proof. unfold row. rewrite seq_S, fold_left_app. reflexivity. Qed.
Lemma row_length n f g : length (row n f g) = 256%nat.
Proof.
  induction n as [|n IH]; [apply repeat_length|]. rewrite row_S, padd_radd by exact IH. apply radd_length.
Qed.
Lemma row_nth n f g c : (c < 256)%nat ->
  cg q (nthz c (row n f g)) (zsum n (fun j => nthz c (mul_ntt (f j) (g j)))).
Proof.
  intro Hc. induction n as [|n IH].
  - change (row 0 f g) with (repeat 0 256). unfold nthz. rewrite nth_repeat. reflexivity.
  - rewrite row_S, padd_radd by apply row_length. rewrite radd_nth by exact Hc. cbn [zsum]. rewrite IH. reflexivity.
Qed.
Lemma row_ext n f g f' g' : (forall j, (j < n)%nat -> f j = f' j /\ g j = g' j) -> row n f g = row n f' g'.
Proof.
  induction n as [|n IH]; intro H; [reflexivity|]. rewrite !row_S, IH by (intros; apply H; lia).
  destruct (H n ltac:(lia)) as [-> ->]. reflexivity.
Qed.

Lemma matrix_vector_row p m v : matrix_vector_ntt p m v =
  map (fun i => row (ell p) (fun j => nthp j (nth i m [])) (fun j => nthp j v)) (seq 0 (k p)).
Proof. reflexivity. Qed.

Section Rows.
Variables (n : nat) (f g : nat -> list Z).
Hypothesis L : forall j, (j < n)%nat -> length (f j) = 256%nat /\ length (g j) = 256%nat.

Lemma row_intt_nth c : (c < 256)%nat ->
  cg q (nthz c (ntt_inverse (row n (fun j => ntt (f j)) (fun j => ntt (g j)))))
       (zsum n (fun j => nthz c (rmul (f j) (g j)))).
Proof using L.
  intro Hc. rewrite (Lin_zsum ntt_inverse n (fun j => mul_ntt (ntt (f j)) (ntt (g j))) ntt_inverse_Lin);
    [| | |intros c' Hc'; apply row_nth; exact Hc'|exact Hc].
  - apply zsum_cg. intros j Hj. destruct (L j Hj). rewrite rmul_intt by assumption. reflexivity.
  - intros. apply mul_ntt_length.
  - apply row_length.
Qed.

Lemma row_intt : ntt_inverse (row n (fun j => ntt (f j)) (fun j => ntt (g j))) = rsum n (fun j => rmul (f j) (g j)).
Proof using L.
  apply red_eq.
  - apply ntt_inverse_length, row_length.
  - apply rsum_length.
  - apply ntt_inverse_reduced.
  - apply rsum_reduced.
  - intros c Hc. rewrite rsum_nth by exact Hc. apply row_intt_nth. exact Hc.
Qed.

Lemma row_sub_intt h t : length h = 256%nat -> length t = 256%nat ->
  ntt_inverse (psub (row n (fun j => ntt (f j)) (fun j => ntt (g j))) (mul_ntt (ntt h) (ntt t))) =
  rsub (rsum n (fun j => rmul (f j) (g j))) (rmul h t).
Proof using L.
  intros Lh Lt. rewrite psub_rsub by apply row_length. apply red_eq.
  - apply ntt_inverse_length, rsub_length.
  - apply rsub_length.
  - apply ntt_inverse_reduced.
  - apply rsub_reduced.
  - intros c Hc. rewrite rsub_nth by exact Hc. rewrite rsum_nth by exact Hc. rewrite <- row_intt_nth by exact Hc.
    rewrite <- (rmul_intt h t) by assumption.
    rewrite (Lin_comb_sub q 256 ntt_inverse (row n (fun j => ntt (f j)) (fun j => ntt (g j))) (mul_ntt (ntt h) (ntt t)));
      [reflexivity|exact ntt_inverse_Lin|apply row_length|apply mul_ntt_length|apply rsub_length| |exact Hc].
    intros c' Hc'. apply rsub_nth. exact Hc'.
Qed.
End Rows.

(** * A (y + c s) = A y + c (A s) *)
Lemma rsum_linear n (a y s z : nat -> list Z) h :
  length h = 256%nat -> (forall j, (j < n)%nat -> length (a j) = 256%nat /\ length (y j) = 256%nat /\ length (s j) = 256%nat /\ length (z j) = 256%nat) ->
  (forall j c, (j < n)%nat -> (c < 256)%nat -> cg q (nthz c (z j)) (nthz c (y j) + nthz c (rmul h (s j)))) ->
  forall c, (c < 256)%nat ->
  cg q (nthz c (rsum n (fun j => rmul (a j) (z j))))
       (nthz c (rsum n (fun j => rmul (a j) (y j))) + nthz c (rmul h (rsum n (fun j => rmul (a j) (s j))))).
Proof.
  intros Lh L E c Hc. rewrite !rsum_nth by exact Hc.
  rewrite (Lin_zsum (fun g => rmul h g) n (fun j => rmul (a j) (s j)) (rmul_Lin_r h));
    [|intros; apply rmul_length|apply rsum_length|intros c' Hc'; apply rsum_nth; exact Hc'|exact Hc].
  rewrite <- zsum_add. apply zsum_cg. intros j Hj. destruct (L j Hj) as (La & Ly & Ls & Lz).
  rewrite (Lin_comb_add q 256 (fun g => rmul (a j) g) (y j) (rmul h (s j)) (z j) (rmul_Lin_r (a j)) Ly (rmul_length _ _) Lz (fun c0 => E j c0 Hj)) by assumption.
  rewrite (rmul_exchange (a j) h (s j)) by assumption. reflexivity.
Qed.
