(** ML-KEM: decapsulation inverts encapsulation; implicit rejection. *)
From Verif Require Export MlKemCodec.
From Coq Require Import Setoid Morphisms.
Local Open Scope Z_scope.

(** * Linear maps and sums *)
Lemma Lin_zsum (F : list Z -> list Z) n (f : nat -> list Z) : Lin q 256 F ->
  (forall j, (j < n)%nat -> length (f j) = 256%nat) ->
  forall h, length h = 256%nat ->
  (forall c, (c < 256)%nat -> cg q (nthz c h) (zsum n (fun j => nthz c (f j)))) ->
  forall c, (c < 256)%nat -> cg q (nthz c (F h)) (zsum n (fun j => nthz c (F (f j)))).
Proof.
  intro HF. induction n as [|n IH]; intros Lf h Lh E c Hc.
  - simpl in *. destruct (HF 0 0 h h h) as (_ & _ & _ & C).
    + repeat (split; [exact Lh|]). intros j Hj. rewrite (E j Hj). apply cg_of_eq. ring.
    + rewrite (C c Hc). apply cg_of_eq. ring.
  - cbn [zsum].
    set (h' := map (fun c => zsum n (fun j => nthz c (f j))) (seq 0 256)).
    assert (Lh' : length h' = 256%nat) by (unfold h'; rewrite map_length, seq_length; reflexivity).
    assert (Nh' : forall c, (c < 256)%nat -> nthz c h' = zsum n (fun j => nthz c (f j)))
      by (intros; unfold h'; apply (nthz_map_seq (fun c => zsum n (fun j => nthz c (f j)))); assumption).
    rewrite (Lin_comb_add q 256 F h' (f n) h HF Lh') ; auto.
    + rewrite (IH (fun j Hj => Lf j (Nat.lt_lt_succ_r _ _ Hj)) h' Lh'); [reflexivity| |exact Hc].
      intros c' Hc'. rewrite Nh' by exact Hc'. reflexivity.
    + intros c' Hc'. rewrite (E c' Hc'). cbn [zsum]. rewrite Nh' by exact Hc'. reflexivity.
Qed.

(** * The ring *)
Notation rmulq := (ring_mul q 256).
Lemma rmul_q f g : rmul f g = rmulq f g. Proof. reflexivity. Qed.

Lemma rmul_length f g : length (rmul f g) = 256%nat. Proof. apply ring_mul_length. Qed.
Lemma rmul_reduced f g : reduced q (rmul f g). Proof. apply ring_mul_reduced. exact q_pos. Qed.
Lemma radd_length f g : length (radd f g) = 256%nat.
Proof. unfold radd. rewrite map_length, seq_length. reflexivity. Qed.
Lemma radd_nth f g c : (c < 256)%nat -> cg q (nthz c (radd f g)) (nthz c f + nthz c g).
Proof.
  intro H. unfold radd. rewrite (nthz_map_seq (fun c => (coeff c f + coeff c g) mod 3329)) by exact H.
  rewrite <- q_val. cgm. reflexivity.
Qed.
Lemma radd_reduced f g : reduced q (radd f g).
Proof. apply Forall_map, Forall_forall. intros. rewrite <- q_val. apply Z.mod_pos_bound, q_pos. Qed.
Lemma rsum_length n f : length (rsum n f) = 256%nat.
Proof. destruct n; [apply repeat_length|apply radd_length]. Qed.
Lemma rsum_nth n f c : (c < 256)%nat -> cg q (nthz c (rsum n f)) (zsum n (fun i => nthz c (f i))).
Proof.
  intro H. induction n as [|n IH].
  - cbn [rsum zsum]. unfold nthz. rewrite nth_repeat. reflexivity.
  - cbn [rsum zsum]. rewrite radd_nth by exact H. rewrite IH. reflexivity.
Qed.
Lemma rsum_reduced n f : reduced q (rsum n f).
Proof.
  destruct n; [|apply radd_reduced]. apply Forall_forall. intros x Hx. apply repeat_spec in Hx. subst.
  pose proof q_pos. lia.
Qed.
Lemma rsub_nth f g c : (c < 256)%nat -> cg q (nthz c (rsub f g)) (nthz c f - nthz c g).
Proof.
  intro H. unfold rsub. rewrite (nthz_map_seq (fun c => (coeff c f - coeff c g) mod 3329)) by exact H.
  rewrite <- q_val. cgm. reflexivity.
Qed.

Lemma poly_add_radd f g : poly_add f g = radd f g. Proof. reflexivity. Qed.

Lemma red_eq f g : length f = 256%nat -> length g = 256%nat -> reduced q f -> reduced q g ->
  (forall c, (c < 256)%nat -> cg q (nthz c f) (nthz c g)) -> f = g.
Proof.
  intros Lf Lg Rf Rg E. apply (veq_reduced_eq q 256); [exact q_pos| |exact Rf|exact Rg].
  split; [exact Lf|]. split; [exact Lg|exact E].
Qed.

Lemma multiply_ntts_cong f f' g g' : veq q 256 f f' -> veq q 256 g g' -> multiply_ntts f g = multiply_ntts f' g'.
Proof.
  intros (A1 & A2 & A3) (B1 & B2 & B3). apply red_eq; try apply multiply_ntts_length; try apply multiply_ntts_reduced.
  intros c Hc. destruct (split2 c) as [Ec Hb]. set (i := Nat.div c 2) in *. set (r := Nat.modulo c 2) in *.
  assert (Hi : (i < 128)%nat) by lia. rewrite Ec. rewrite !multiply_ntts_nth by assumption.
  destruct (Nat.eqb r 0); cgm; rewrite (A3 (2 * i + 0)%nat), (A3 (2 * i + 1)%nat), (B3 (2 * i + 0)%nat), (B3 (2 * i + 1)%nat) by lia; reflexivity.
Qed.

Lemma multiply_ntts_comm f g : multiply_ntts f g = multiply_ntts g f.
Proof.
  apply red_eq; try apply multiply_ntts_length; try apply multiply_ntts_reduced.
  intros c Hc. destruct (split2 c) as [Ec Hb]. set (i := Nat.div c 2) in *. set (r := Nat.modulo c 2) in *.
  assert (Hi : (i < 128)%nat) by lia. rewrite Ec. rewrite !multiply_ntts_nth by assumption.
  destruct (Nat.eqb r 0); cgm; apply cg_of_eq; ring.
Qed.

Lemma multiply_ntts_assoc f g h :
  multiply_ntts (multiply_ntts f g) h = multiply_ntts f (multiply_ntts g h).
Proof.
  apply red_eq; try apply multiply_ntts_length; try apply multiply_ntts_reduced.
  intros c Hc. destruct (split2 c) as [Ec Hb]. set (i := Nat.div c 2) in *. set (r := Nat.modulo c 2) in *.
  assert (Hi : (i < 128)%nat) by lia. rewrite Ec.
  rewrite (multiply_ntts_nth (multiply_ntts f g)), (multiply_ntts_nth f (multiply_ntts g h)) by assumption.
  rewrite !(multiply_ntts_nth f g) by lia. rewrite !(multiply_ntts_nth g h) by lia. cbn [Nat.eqb].
  destruct (Nat.eqb r 0); cgm; apply cg_of_eq; ring.
Qed.

Lemma ntt_rmul f g : length f = 256%nat -> length g = 256%nat ->
  ntt (rmul f g) = multiply_ntts (ntt f) (ntt g).
Proof.
  intros Lf Lg. symmetry. apply (veq_reduced_eq q 256).
  - exact q_pos.
  - apply ntt_mul; assumption.
  - apply multiply_ntts_reduced.
  - apply ntt_reduced, rmul_reduced.
Qed.

Lemma rmul_intt f g : length f = 256%nat -> length g = 256%nat ->
  rmul f g = ntt_inverse (multiply_ntts (ntt f) (ntt g)).
Proof. intros. symmetry. apply intt_mul; assumption. Qed.

Lemma rmul_comm f g : length f = 256%nat -> length g = 256%nat -> rmul f g = rmul g f.
Proof. intros. rewrite !rmul_intt by assumption. f_equal. apply multiply_ntts_comm. Qed.

Lemma rmul_assoc f g h : length f = 256%nat -> length g = 256%nat -> length h = 256%nat ->
  rmul (rmul f g) h = rmul f (rmul g h).
Proof.
  intros. rewrite (rmul_intt (rmul f g)), (rmul_intt f (rmul g h)) by (assumption || apply rmul_length).
  rewrite !ntt_rmul by assumption. f_equal. apply multiply_ntts_assoc.
Qed.

Lemma rmul_exchange a s y : length a = 256%nat -> length s = 256%nat -> length y = 256%nat ->
  rmul (rmul a s) y = rmul s (rmul a y).
Proof. intros. rewrite (rmul_comm a s), rmul_assoc by assumption. reflexivity. Qed.

(** * Sums of products in the model *)
Section Params.
Variable p : params.

Lemma dot_length acc f g : length acc = 256%nat -> length (dot p acc f g) = 256%nat.
Proof.
  unfold dot. intro L. generalize (seq 0 (k p)). intro l. revert acc L.
  induction l as [|j l IH]; intros acc L; [exact L|]. cbn [fold_left]. apply IH. apply radd_length.
Qed.

Lemma dot_reduced acc f g : reduced q acc -> reduced q (dot p acc f g).
Proof.
  unfold dot. intro R. generalize (seq 0 (k p)). intro l. revert acc R.
  induction l as [|j l IH]; intros acc R; [exact R|]. cbn [fold_left]. apply IH. apply radd_reduced.
Qed.

Lemma dot_nth acc f g c : (c < 256)%nat ->
  cg q (nthz c (dot p acc f g)) (nthz c acc + zsum (k p) (fun j => nthz c (multiply_ntts (f j) (g j)))).
Proof.
  intro Hc. unfold dot. induction (k p) as [|n IH].
  - simpl. apply cg_of_eq. ring.
  - rewrite seq_S, fold_left_app. cbn [fold_left zsum Nat.add].
    rewrite poly_add_radd, radd_nth by exact Hc. rewrite IH. apply cg_of_eq. ring.
Qed.

Lemma zero_nth c : nthz c zero_poly = 0.
Proof.
  unfold nthz, zero_poly. destruct (Nat.lt_ge_cases c 256) as [H|H].
  - apply nth_repeat.
  - apply nth_overflow. rewrite repeat_length. exact H.
Qed.

Lemma zero_reduced : reduced q zero_poly.
Proof.
  apply Forall_forall. intros x Hx. apply repeat_spec in Hx. subst. pose proof q_pos. lia.
Qed.

Lemma intt_dot f g : (forall j, (j < k p)%nat -> length (f j) = 256%nat /\ length (g j) = 256%nat) ->
  ntt_inverse (dot p zero_poly (fun j => ntt (f j)) (fun j => ntt (g j))) = rsum (k p) (fun j => rmul (f j) (g j)).
Proof.
  intro L. apply red_eq.
  - apply ntt_inverse_length, dot_length. apply repeat_length.
  - apply rsum_length.
  - apply ntt_inverse_reduced.
  - apply rsum_reduced.
  - intros c Hc. rewrite rsum_nth by exact Hc.
    rewrite (Lin_zsum ntt_inverse (k p) (fun j => multiply_ntts (ntt (f j)) (ntt (g j))) ntt_inverse_Lin);
      [| | |intros c' Hc'; rewrite dot_nth by exact Hc'; rewrite zero_nth; apply cg_of_eq; reflexivity|exact Hc].
    + apply zsum_cg. intros j Hj. destruct (L j Hj). rewrite <- rmul_intt by assumption. reflexivity.
    + intros. apply multiply_ntts_length.
    + apply dot_length, repeat_length.
Qed.

Lemma ntt_dot e f g : length e = 256%nat -> reduced q e ->
  (forall j, (j < k p)%nat -> length (f j) = 256%nat /\ length (g j) = 256%nat) ->
  dot p (ntt e) (fun j => ntt (f j)) (fun j => ntt (g j)) = ntt (radd e (rsum (k p) (fun j => rmul (f j) (g j)))).
Proof.
  intros Le Re L. apply red_eq.
  - apply dot_length, ntt_length, Le.
  - apply ntt_length, radd_length.
  - apply dot_reduced, ntt_reduced, Re.
  - apply ntt_reduced, radd_reduced.
  - intros c Hc. rewrite dot_nth by exact Hc.
    rewrite (Lin_comb_add q 256 ntt e (rsum (k p) (fun j => rmul (f j) (g j)))
              (radd e (rsum (k p) (fun j => rmul (f j) (g j)))) ntt_Lin Le (rsum_length _ _) (radd_length _ _));
      [|intros; apply radd_nth; assumption|exact Hc].
    rewrite (Lin_zsum ntt (k p) (fun j => rmul (f j) (g j)) ntt_Lin (fun j _ => rmul_length _ _)
               (rsum (k p) (fun j => rmul (f j) (g j))) (rsum_length _ _));
      [|intros; apply rsum_nth; assumption|exact Hc].
    assert (X : cg q (zsum (k p) (fun j => nthz c (multiply_ntts (ntt (f j)) (ntt (g j)))))
                      (zsum (k p) (fun j => nthz c (ntt (rmul (f j) (g j)))))).
    { apply zsum_cg. intros j Hj. destruct (L j Hj). rewrite <- ntt_rmul by assumption. reflexivity. }
    rewrite X. reflexivity.
Qed.
End Params.

Lemma dot_ext p acc f g f' g' : (forall j, (j < k p)%nat -> f j = f' j /\ g j = g' j) ->
  dot p acc f g = dot p acc f' g'.
Proof.
  intro H. unfold dot.
  assert (K : forall l acc, (forall j, In j l -> (j < k p)%nat) ->
    fold_left (fun t j => poly_add t (multiply_ntts (f j) (g j))) l acc =
    fold_left (fun t j => poly_add t (multiply_ntts (f' j) (g' j))) l acc).
  { induction l as [|j l IH]; intros acc0 Hl; [reflexivity|]. cbn [fold_left].
    destruct (H j) as [-> ->]; [apply Hl; left; reflexivity|]. apply IH. intros. apply Hl. right. assumption. }
  apply K. intros j Hj. apply in_seq in Hj. lia.
Qed.

(** * Encodings of vectors *)
Definition enc_bytes (d : nat) (f : list Z) : bytes :=
  match byte_encode d f with Ok b => b | Err _ => [] end.

Lemma enc_bytes_spec d f : (d <= 12)%nat -> length f = 256%nat -> Forall (fun x => 0 <= x < enc_mod d) f ->
  byte_encode d f = Ok (enc_bytes d f) /\ length (enc_bytes d f) = (32 * d)%nat /\
  is_bytes (enc_bytes d f) = true /\ byte_decode d (enc_bytes d f) = Ok f.
Proof.
  intros Hd L F. destruct (encode_decode_coeffs d f Hd L F) as (b & E & Lb & B & D).
  unfold enc_bytes. rewrite E. auto.
Qed.

Lemma vec_encode d fs : (d <= 12)%nat ->
  (forall f, In f fs -> length f = 256%nat /\ Forall (fun x => 0 <= x < enc_mod d) f) ->
  byte_encode_vec d fs = Ok (concat (map (enc_bytes d) fs)) /\
  Forall (fun c => length c = (32 * d)%nat) (map (enc_bytes d) fs).
Proof.
  intros Hd H. split.
  - unfold byte_encode_vec. rewrite (mapM_ok_map _ (enc_bytes d)); [reflexivity|].
    intros f Hf. destruct (H f Hf). apply enc_bytes_spec; assumption.
  - apply Forall_map, Forall_forall. intros f Hf. destruct (H f Hf). apply enc_bytes_spec; assumption.
Qed.

Lemma concat_length d (ls : list bytes) : Forall (fun c => length c = d) ls -> length (concat ls) = (d * length ls)%nat.
Proof.
  induction 1 as [|c ls Hc _ IH]; [simpl; lia|]. cbn [concat length]. rewrite app_length, Hc, IH. lia.
Qed.

Lemma compress_ok d f : (d < 12)%nat -> length f = 256%nat ->
  length (compress d f) = 256%nat /\ Forall (fun x => 0 <= x < enc_mod d) (compress d f).
Proof.
  intros Hd L. unfold compress. rewrite map_length. split; [exact L|].
  apply Forall_map, Forall_forall. intros. rewrite (enc_mod_lt12 d Hd). apply compress1_bound.
Qed.

(** * Message bits *)
Lemma msg_decode m : length m = 32%nat -> is_bytes m = true ->
  byte_decode 1 m = Ok (map (msg_bit m) (seq 0 256)) /\ decompress 1 (map (msg_bit m) (seq 0 256)) = mu m /\
  byte_encode 1 (map (msg_bit m) (seq 0 256)) = Ok m.
Proof.
  intros L B.
  assert (D : byte_decode 1 m = Ok (map (msg_bit m) (seq 0 256))).
  { unfold byte_decode.
    destruct (chunks_ok 256 1 (bytes_to_bits m)) as (cs & E & Lc & F & C).
    { rewrite bytes_to_bits_length. lia. }
    rewrite E. cbn [bind]. f_equal.
    rewrite firstn_all2 in C by (rewrite bytes_to_bits_length; lia).
    assert (Ecs : map (fun c => from_bits c mod enc_mod 1) cs = bytes_to_bits m).
    { rewrite <- C. pose proof (bytes_to_bits_bits m) as Bt. rewrite <- C in Bt.
      clear - F Bt. induction F as [|c cs Hc _ IH]; [reflexivity|].
      destruct c as [|b [|? ?]]; simpl in Hc; try lia. cbn [concat map app] in *.
      inversion_clear Bt as [|? ? Hb Hbs]. rewrite IH by exact Hbs. f_equal.
      change (enc_mod 1) with 2. cbn [from_bits]. destruct Hb as [->| ->]; reflexivity. }
    rewrite Ecs. apply nthz_ext.
    - rewrite bytes_to_bits_length, map_length, seq_length. lia.
    - intros c Hc. rewrite bytes_to_bits_length in Hc.
      rewrite (nthz_map_seq (msg_bit m)) by lia. clear - Hc. revert c Hc.
      unfold msg_bit, nthz, bytes_to_bits. induction m as [|x m IH]; intros c Hc; [simpl in Hc; lia|].
      cbn [flat_map]. destruct (Nat.lt_ge_cases c 8) as [H8|H8].
      + rewrite app_nth1 by (rewrite bits_of_length; exact H8).
        rewrite (Nat.div_small c 8), (Nat.mod_small c 8) by exact H8. cbn [nth].
        clear - H8. revert c x H8. generalize 8%nat. induction n as [|n IH]; intros c x H; [lia|].
        cbn [bits_of]. destruct c as [|c].
        * cbn [nth]. rewrite Z.pow_0_r, Z.div_1_r. reflexivity.
        * cbn [nth]. rewrite IH by lia. rewrite Nat2Z.inj_succ, Z.pow_succ_r by lia.
          rewrite Z.div_div by (try lia; apply Z.pow_pos_nonneg; lia). reflexivity.
      + rewrite app_nth2 by (rewrite bits_of_length; exact H8). rewrite bits_of_length.
        rewrite IH by (simpl in Hc; lia).
        replace c with ((c - 8) + 1 * 8)%nat at 3 4 by lia.
        rewrite Nat.div_add, Nat.mod_add by lia.
        rewrite (Nat.add_comm _ 1). reflexivity. }
  split; [exact D|]. split.
  - unfold decompress, mu. rewrite map_map. apply map_ext. intro c.
    assert (Hb : 0 <= msg_bit m c < 2) by (apply Z.mod_pos_bound; lia).
    destruct (Z.eq_dec (msg_bit m c) 0) as [->|]; [reflexivity|].
    replace (msg_bit m c) with 1 by lia. reflexivity.
  - destruct (decode_encode_bytes 1 m ltac:(lia) ltac:(lia) B) as (f & D' & E').
    rewrite D in D'. injection D' as <-. exact E'.
Qed.

Lemma compress_bit x : 0 <= x < q -> compress1 1 x = if (833 <=? x) && (x <=? 2496) then 1 else 0.
Proof.
  intro H. unfold compress1. rewrite Z.shiftl_1_l, Z.shiftl_mul_pow2 by lia. rewrite q_val in *.
  change (2 ^ Z.of_nat 1) with 2. change ((3329 - 1) / 2) with 1664.
  destruct (Z.leb_spec 833 x); [destruct (Z.leb_spec x 2496)|]; cbn [andb].
  - replace ((x * 2 + 1664) / 3329) with 1 by (apply (Z.div_unique _ _ _ (x * 2 + 1664 - 3329)); lia). reflexivity.
  - replace ((x * 2 + 1664) / 3329) with 2 by (apply (Z.div_unique _ _ _ (x * 2 + 1664 - 6658)); lia). reflexivity.
  - replace ((x * 2 + 1664) / 3329) with 0 by (apply (Z.div_unique _ _ _ (x * 2 + 1664)); lia). reflexivity.
Qed.

Lemma bit_recovered b x n t : b = 0 \/ b = 1 -> 0 <= x < q -> x = b * 1665 + n + t * q -> -832 <= n <= 831 ->
  compress1 1 x = b.
Proof.
  intros Hb Hx E Hn. rewrite compress_bit by exact Hx. rewrite q_val in *.
  destruct Hb as [-> | ->].
  - destruct (Z.leb_spec 833 x); [|reflexivity]. destruct (Z.leb_spec x 2496); [|reflexivity]. lia.
  - destruct (Z.leb_spec 833 x); [|lia]. destruct (Z.leb_spec x 2496); [|lia]. reflexivity.
Qed.
