(** Byte encoding, compression and sampling of the ML-KEM model. *)
From Verif Require Export MlKemNtt MlKemSpec.
From Coq Require Import Setoid Morphisms.
Local Open Scope Z_scope.

(** * Byte encoding *)
Lemma enc_mod_pos d : 0 < enc_mod d.
Proof.
  unfold enc_mod. destruct (d <? 12)%nat; [|exact q_pos].
  rewrite Z.shiftl_1_l. apply Z.pow_pos_nonneg; lia.
Qed.

Lemma enc_mod_le d : (d <= 12)%nat -> enc_mod d <= 2 ^ Z.of_nat d.
Proof.
  intro H. unfold enc_mod. destruct (Nat.ltb_spec d 12).
  - rewrite Z.shiftl_1_l. lia.
  - replace d with 12%nat by lia. vm_compute. discriminate.
Qed.

Lemma enc_mod_lt12 d : (d < 12)%nat -> enc_mod d = 2 ^ Z.of_nat d.
Proof. intro H. unfold enc_mod. destruct (Nat.ltb_spec d 12); [|lia]. apply Z.shiftl_1_l. Qed.

Lemma enc_mod_12 : enc_mod 12 = q. Proof. reflexivity. Qed.

Lemma byte_encode_ok d f : (d <= 12)%nat -> length f = 256%nat ->
  exists b, byte_encode d f = Ok b /\ length b = (32 * d)%nat /\ is_bytes b = true /\
            byte_decode d b = Ok (map (fun x => x mod enc_mod d) f).
Proof.
  intros Hd L. unfold byte_encode, take_exact. rewrite L, Nat.ltb_irrefl. cbn [bind].
  rewrite <- L, firstn_all.
  set (ls := map (fun x => bits_of d (x mod enc_mod d)) f).
  assert (F : Forall (fun c => length c = d) ls).
  { apply Forall_map, Forall_forall. intros. apply bits_of_length. }
  assert (E : flat_map (fun x => bits_of d (x mod enc_mod d)) f = concat ls) by apply flat_map_concat_map.
  assert (Lc : length (concat ls) = (8 * (32 * d))%nat).
  { transitivity (length ls * d)%nat.
    - clear - F. induction F as [|c ls Hc _ IH]; [reflexivity|].
      cbn [concat length]. rewrite app_length, Hc, IH. lia.
    - unfold ls. rewrite map_length, L. lia. }
  assert (B : Forall is_bit (concat ls)).
  { rewrite <- E. clear. induction f as [|x f IH]; [constructor|]. cbn [flat_map].
    apply Forall_app. split; [apply bits_of_bits|exact IH]. }
  rewrite E. destruct (bits_to_bytes_ok _ _ Lc B) as (b & E1 & E2 & E3 & E4).
  exists b. split; [exact E1|]. split; [exact E3|]. split; [exact E4|].
  unfold byte_decode. rewrite E2. rewrite <- (app_nil_r (concat ls)).
  replace 256%nat with (length ls) by (unfold ls; rewrite map_length; exact L).
  rewrite chunks_concat by exact F. cbn [bind]. f_equal. unfold ls. rewrite map_map.
  apply map_ext. intro x. rewrite from_bits_of.
  pose proof (Z.mod_pos_bound x (enc_mod d) (enc_mod_pos d)) as P. pose proof (enc_mod_le d Hd) as P2.
  rewrite (Z.mod_small (x mod enc_mod d) (2 ^ Z.of_nat d)) by lia.
  apply Z.mod_small. exact P.
Qed.

Lemma map_mod_small m f : Forall (fun x => 0 <= x < m) f -> map (fun x => x mod m) f = f.
Proof.
  induction 1 as [|x f Hx _ IH]; [reflexivity|]. simpl. rewrite IH, Z.mod_small by exact Hx. reflexivity.
Qed.

Lemma encode_decode_coeffs d f : (d <= 12)%nat -> length f = 256%nat ->
  Forall (fun x => 0 <= x < enc_mod d) f ->
  exists b, byte_encode d f = Ok b /\ length b = (32 * d)%nat /\ is_bytes b = true /\ byte_decode d b = Ok f.
Proof.
  intros Hd L F. destruct (byte_encode_ok d f Hd L) as (b & E & Lb & Ib & D).
  exists b. rewrite map_mod_small in D by exact F. auto.
Qed.

Lemma byte_decode_ok d b : length b = (32 * d)%nat ->
  exists f, byte_decode d b = Ok f /\ length f = 256%nat /\ Forall (fun x => 0 <= x < enc_mod d) f.
Proof.
  intro L. unfold byte_decode.
  destruct (chunks_ok 256 d (bytes_to_bits b)) as (cs & E & Lc & F & C).
  { rewrite bytes_to_bits_length. lia. }
  rewrite E. cbn [bind]. eexists. split; [reflexivity|]. split; [rewrite map_length; exact Lc|].
  apply Forall_map, Forall_forall. intros. apply Z.mod_pos_bound, enc_mod_pos.
Qed.

Lemma byte_decode_short d b : (length b < 32 * d)%nat -> byte_decode d b = Err EIndexError.
Proof.
  intro L. unfold byte_decode. rewrite chunks_short; [reflexivity|].
  rewrite bytes_to_bits_length. lia.
Qed.

Lemma decode_encode_bytes d b : (d < 12)%nat -> length b = (32 * d)%nat -> is_bytes b = true ->
  exists f, byte_decode d b = Ok f /\ byte_encode d f = Ok b.
Proof.
  intros Hd L Ib. unfold byte_decode.
  destruct (chunks_ok 256 d (bytes_to_bits b)) as (cs & E & Lc & F & C).
  { rewrite bytes_to_bits_length. lia. }
  rewrite E. cbn [bind]. eexists. split; [reflexivity|].
  unfold byte_encode, take_exact. rewrite map_length, Lc, Nat.ltb_irrefl. cbn [bind].
  rewrite <- Lc, <- (map_length (fun c => from_bits c mod enc_mod d) cs), firstn_all.
  transitivity (bits_to_bytes (bytes_to_bits b)); [f_equal|apply bits_to_bytes_inv; exact Ib].
  rewrite firstn_all2 in C by (rewrite bytes_to_bits_length; lia). rewrite <- C.
  assert (B : Forall is_bit (concat cs)) by (rewrite C; apply bytes_to_bits_bits).
  rewrite (enc_mod_lt12 d Hd). clear - F B. induction F as [|c cs Hc _ IH]; [reflexivity|].
  cbn [map flat_map concat] in *. apply Forall_app in B as [B1 B2].
  rewrite IH by exact B2. f_equal.
  pose proof (from_bits_bound c B1) as P. rewrite Hc in P.
  rewrite !(Z.mod_small (from_bits c)) by exact P. rewrite <- Hc. apply bits_of_from. exact B1.
Qed.

(** * Compression *)
Lemma compress1_bound d x : 0 <= compress1 d x < 2 ^ Z.of_nat d.
Proof. unfold compress1. rewrite Z.shiftl_1_l. apply Z.mod_pos_bound. apply Z.pow_pos_nonneg; lia. Qed.

Definition zseq (n : nat) : list Z := map Z.of_nat (seq 0 n).
Lemma in_zseq n x : 0 <= x < Z.of_nat n -> In x (zseq n).
Proof. intro H. unfold zseq. apply in_map_iff. exists (Z.to_nat x). split; [lia|]. apply in_seq. lia. Qed.

Lemma q_val : q = 3329. Proof. reflexivity. Qed.

Lemma pow_half d : (1 <= d)%nat -> exists H, 2 ^ Z.of_nat d = 2 * H /\ 2 ^ (Z.of_nat d - 1) = H /\ 2 ^ (Z.of_nat d + 1) = 4 * H /\ 0 < H.
Proof.
  intro Hd. exists (2 ^ (Z.of_nat d - 1)).
  assert (E : 2 ^ Z.of_nat d = 2 * 2 ^ (Z.of_nat d - 1)) by (rewrite <- Z.pow_succ_r by lia; f_equal; lia).
  split; [exact E|]. split; [reflexivity|]. split.
  - rewrite Z.pow_add_r, E by lia. ring.
  - apply Z.pow_pos_nonneg; lia.
Qed.

Lemma compress_near d x : (1 <= d < 12)%nat -> 0 <= x < q ->
  near q ((q + 2 ^ Z.of_nat d) / 2 ^ (Z.of_nat d + 1)) (decompress1 d (compress1 d x)) x.
Proof.
  intros Hd _. unfold decompress1, compress1. rewrite !Z.shiftl_1_l, Z.shiftl_mul_pow2, Z.shiftr_div_pow2 by lia.
  destruct (pow_half d ltac:(lia)) as (H & -> & -> & -> & HP). rewrite q_val. change ((3329 - 1) / 2) with 1664.
  set (Y := (x * (2 * H) + 1664) / 3329).
  pose proof (Z.div_mod (x * (2 * H) + 1664) 3329 ltac:(lia)) as E1.
  pose proof (Z.mod_pos_bound (x * (2 * H) + 1664) 3329 ltac:(lia)) as B1. fold Y in E1.
  pose proof (Z.div_mod Y (2 * H) ltac:(lia)) as E2. set (y := Y mod (2 * H)) in *. set (t := Y / (2 * H)) in *.
  pose proof (Z.div_mod (3329 * y + H) (2 * H) ltac:(lia)) as E3.
  pose proof (Z.mod_pos_bound (3329 * y + H) (2 * H) ltac:(lia)) as B3.
  set (D := (3329 * y + H) / (2 * H)) in *.
  set (r1 := (x * (2 * H) + 1664) mod 3329) in *. set (r3 := (3329 * y + H) mod (2 * H)) in *. clearbody r1 r3 D t Y y.
  exists (- t), (D + t * 3329 - x). split; [ring|].
  assert (K : 2 * H * (D + t * 3329 - x) = 1664 - r1 + H - r3) by nia.
  apply Z.div_le_lower_bound; [lia|]. destruct (Z.abs_spec (D + t * 3329 - x)) as [[_ ->]|[_ ->]]; nia.
Qed.

Lemma compress_decompress d y : (1 <= d < 12)%nat -> 0 <= y < 2 ^ Z.of_nat d ->
  compress1 d (decompress1 d y) = y.
Proof.
  intros Hd Hy. unfold decompress1, compress1. rewrite !Z.shiftl_1_l, Z.shiftl_mul_pow2, Z.shiftr_div_pow2 by lia.
  assert (M : 2 ^ Z.of_nat d <= 2 ^ 11) by (apply Z.pow_le_mono_r; lia). change (2 ^ 11) with 2048 in M.
  destruct (pow_half d ltac:(lia)) as (H & E & -> & _ & HP). rewrite E in *. rewrite q_val. change ((3329 - 1) / 2) with 1664.
  pose proof (Z.div_mod (3329 * y + H) (2 * H) ltac:(lia)) as E3.
  pose proof (Z.mod_pos_bound (3329 * y + H) (2 * H) ltac:(lia)) as B3.
  set (D := (3329 * y + H) / (2 * H)) in *. set (r3 := (3329 * y + H) mod (2 * H)) in *. clearbody r3 D.
  replace ((D * (2 * H) + 1664) / 3329) with y; [apply Z.mod_small; exact Hy|].
  apply (Z.div_unique _ _ _ (1664 + H - r3)); lia.
Qed.

Lemma decompress1_bound d y : (1 <= d)%nat -> 0 <= y < 2 ^ Z.of_nat d -> 0 <= decompress1 d y <= q.
Proof.
  intros Hd Hy. unfold decompress1. rewrite Z.shiftr_div_pow2, Z.shiftl_1_l by lia.
  assert (P : 0 < 2 ^ Z.of_nat d) by (apply Z.pow_pos_nonneg; lia).
  assert (P2 : 2 ^ Z.of_nat d = 2 * 2 ^ (Z.of_nat d - 1)).
  { rewrite <- Z.pow_succ_r by lia. f_equal. lia. }
  pose proof q_pos. split.
  - apply Z.div_pos; nia.
  - apply Z.lt_succ_r. apply Z.div_lt_upper_bound; [lia|]. nia.
Qed.

(** * Sampling *)
Lemma zlsum_bits l : Forall is_bit l -> 0 <= zlsum l <= Z.of_nat (length l).
Proof.
  induction 1 as [|b l Hb _ IH]; [simpl; lia|]. cbn [zlsum fold_right length].
  change (fold_right Z.add 0 l) with (zlsum l). destruct Hb; lia.
Qed.

Lemma slice_bits a b l : Forall is_bit l -> Forall is_bit (@slice Z a b l).
Proof.
  intro H. unfold slice. apply Forall_forall. intros x Hx. rewrite Forall_forall in H. apply H.
  rewrite <- (firstn_skipn a l). apply in_or_app. right.
  rewrite <- (firstn_skipn (b - a) (skipn a l)). apply in_or_app. left. exact Hx.
Qed.

Lemma slice_length_le {A} a b (l : list A) : (length (slice a b l) <= b - a)%nat.
Proof. unfold slice. rewrite firstn_length. lia. Qed.

Lemma sample_poly_cbd_length eta b : length (sample_poly_cbd eta b) = 256%nat.
Proof. unfold sample_poly_cbd. rewrite map_length, seq_length. reflexivity. Qed.

Lemma sample_poly_cbd_reduced eta b : reduced q (sample_poly_cbd eta b).
Proof. apply Forall_map, Forall_forall. intros. apply Z.mod_pos_bound. exact q_pos. Qed.

Lemma sample_poly_cbd_near eta b x : In x (sample_poly_cbd eta b) -> near q (Z.of_nat eta) x 0.
Proof.
  intro H. unfold sample_poly_cbd in H. apply in_map_iff in H as (i & <- & _).
  set (l := bytes_to_bits b). cbv zeta.
  assert (B : Forall is_bit l) by apply bytes_to_bits_bits.
  pose proof (zlsum_bits _ (slice_bits (2 * i * eta) ((2 * i + 1) * eta) l B)) as H1.
  pose proof (zlsum_bits _ (slice_bits ((2 * i + 1) * eta) ((2 * i + 2) * eta) l B)) as H2.
  pose proof (slice_length_le (2 * i * eta) ((2 * i + 1) * eta) l) as L1.
  pose proof (slice_length_le ((2 * i + 1) * eta) ((2 * i + 2) * eta) l) as L2.
  set (u := zlsum (slice (2 * i * eta) ((2 * i + 1) * eta) l)) in *.
  set (v := zlsum (slice ((2 * i + 1) * eta) ((2 * i + 2) * eta) l)) in *.
  pose proof (Z.mod_eq (u - v) q q_nz) as M.
  assert (L1' : Z.of_nat (length (slice (2 * i * eta) ((2 * i + 1) * eta) l)) <= Z.of_nat eta) by (clear - L1; nia).
  assert (L2' : Z.of_nat (length (slice ((2 * i + 1) * eta) ((2 * i + 2) * eta) l)) <= Z.of_nat eta) by (clear - L2; nia).
  exists (- ((u - v) / q)), (u - v). split; [rewrite M; ring|]. lia.
Qed.

Lemma sample_ntt_loop_ok : forall s n a, is_bytes s = true -> sample_ntt_loop n s = Ok a ->
  length a = n /\ reduced q a.
Proof.
  assert (K : forall m s n a, (length s <= m)%nat -> is_bytes s = true -> sample_ntt_loop n s = Ok a ->
    length a = n /\ reduced q a).
  { induction m as [|m IH]; intros s n a L B E.
    - destruct s; [|simpl in L; lia]. destruct n; simpl in E; [|discriminate].
      injection E as <-. split; [reflexivity|constructor].
    - destruct n as [|n].
      { destruct s; simpl in E; injection E as <-; split; try reflexivity; constructor. }
      destruct s as [|c0 [|c1 [|c2 s]]]; try discriminate.
      unfold is_bytes in B. cbn [forallb] in B. rewrite !andb_true_iff in B.
      destruct B as (B0 & B1 & B2 & B). unfold is_byte in *.
      rewrite !andb_true_iff, !Z.leb_le, !Z.ltb_lt in *.
      assert (Ls : (length s <= m)%nat) by (simpl in L; lia).
      assert (P1 : 0 <= c0 + 256 * (c1 mod 16)) by (pose proof (Z.mod_pos_bound c1 16); lia).
      assert (P2 : 0 <= c1 / 16 + 16 * c2) by (pose proof (Z.div_pos c1 16); lia).
      cbn [sample_ntt_loop] in E.
      destruct (Z.ltb_spec (c0 + 256 * (c1 mod 16)) q) as [D1|D1].
      + destruct (Z.ltb_spec (c1 / 16 + 16 * c2) q) as [D2|D2].
        * destruct n as [|n]; cbn [Nat.eqb negb andb pred] in E.
          -- destruct (sample_ntt_loop 0 s) eqn:S1; [|discriminate]. injection E as <-.
             destruct (IH _ _ _ Ls B S1) as [X1 X2]. split; [simpl; congruence|constructor; [split; assumption|exact X2]].
          -- destruct (sample_ntt_loop n s) eqn:S1; [|discriminate]. injection E as <-.
             destruct (IH _ _ _ Ls B S1) as [X1 X2]. split; [simpl; congruence|].
             constructor; [split; assumption|]. constructor; [split; assumption|exact X2].
        * cbn [andb] in E. destruct (sample_ntt_loop n s) eqn:S1; [|discriminate]. injection E as <-.
          destruct (IH _ _ _ Ls B S1) as [X1 X2]. split; [simpl; congruence|constructor; [split; assumption|exact X2]].
      + destruct (Z.ltb_spec (c1 / 16 + 16 * c2) q) as [D2|D2].
        * destruct (sample_ntt_loop n s) eqn:S1; [|discriminate]. injection E as <-.
          destruct (IH _ _ _ Ls B S1) as [X1 X2]. split; [simpl; congruence|constructor; [split; assumption|exact X2]].
        * apply (IH s (S n) a Ls B E). }
  intros s n a. apply (K (length s)). lia.
Qed.

Lemma sample_ntt_loop_err : forall s n e, sample_ntt_loop n s = Err e -> e = ERuntimeError.
Proof.
  assert (K : forall m s n e, (length s <= m)%nat -> sample_ntt_loop n s = Err e -> e = ERuntimeError).
  { induction m as [|m IH]; intros s n e L E.
    - destruct s; [|simpl in L; lia]. destruct n; simpl in E; congruence.
    - destruct n as [|n]. { destruct s; discriminate. }
      destruct s as [|c0 [|c1 [|c2 s]]]; try (injection E as <-; reflexivity).
      assert (Ls : (length s <= m)%nat) by (simpl in L; lia).
      cbn [sample_ntt_loop] in E.
      destruct (c0 + 256 * (c1 mod 16) <? q); destruct (c1 / 16 + 16 * c2 <? q); cbn [andb] in E.
      + destruct (negb (n =? 0)%nat);
          match type of E with (let! _ := ?x in _) = _ => destruct x eqn:S1 end; try discriminate;
          injection E as <-; apply (IH _ _ _ Ls S1).
      + destruct (sample_ntt_loop n s) eqn:S1; [discriminate|]. injection E as <-. apply (IH _ _ _ Ls S1).
      + destruct (sample_ntt_loop n s) eqn:S1; [discriminate|]. injection E as <-. apply (IH _ _ _ Ls S1).
      + apply (IH _ _ _ Ls E). }
  intros s n e. apply (K (length s)). lia.
Qed.

Lemma sample_ntt_loop_spec : forall s n,
  sample_ntt_loop n s = if (n <=? length (accepted_candidates q s))%nat
                        then Ok (firstn n (accepted_candidates q s)) else Err ERuntimeError.
Proof.
  assert (K : forall m s n, (length s <= m)%nat ->
    sample_ntt_loop n s = if (n <=? length (accepted_candidates q s))%nat
                        then Ok (firstn n (accepted_candidates q s)) else Err ERuntimeError).
  { unfold accepted_candidates. induction m as [|m IH]; intros s n L.
    - destruct s; [|simpl in L; lia]. destruct n; reflexivity.
    - destruct n as [|n]. { destruct s; reflexivity. }
      destruct s as [|c0 [|c1 [|c2 s]]]; try reflexivity.
      assert (Ls : (length s <= m)%nat) by (simpl in L; lia).
      cbn [sample_ntt_loop candidates filter].
      destruct (c0 + 256 * (c1 mod 16) <? q); destruct (c1 / 16 + 16 * c2 <? q); cbn [andb length].
      + destruct n as [|n]; cbn [Nat.eqb negb pred]; rewrite (IH _ _ Ls); cbn [Nat.leb].
        * reflexivity.
        * destruct (Nat.leb_spec n (length (filter (fun x => x <? q) (candidates s)))); reflexivity.
      + rewrite (IH _ _ Ls). cbn [Nat.leb].
        destruct (Nat.leb_spec n (length (filter (fun x => x <? q) (candidates s)))); reflexivity.
      + rewrite (IH _ _ Ls). cbn [Nat.leb].
        destruct (Nat.leb_spec n (length (filter (fun x => x <? q) (candidates s)))); reflexivity.
      + apply (IH _ _ Ls). }
  intros s n. apply (K (length s)). lia.
Qed.
