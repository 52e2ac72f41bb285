(** Facts about the 32-byte addresses of SLH-DSA. *)
From Verif Require Import SlhModel LatFacts.
From Coq Require Import Lia.
Local Open Scope Z_scope.

Lemma be_length n : forall x, length (be n x) = n.
Proof. induction n as [|n IH]; intro x; [reflexivity|]. cbn [be]. rewrite app_length, IH. cbn [length]. lia. Qed.

Lemma from_be_app a : forall b, from_be (a ++ b) = from_be a * 256 ^ Z.of_nat (length b) + from_be b.
Proof.
  intro b. unfold from_be. rewrite fold_left_app. generalize (fold_left (fun t x => 256 * t + x) a 0).
  intro t. revert t. induction b as [|x b IH] using rev_ind; intro t.
  - cbn [fold_left length]. change (256 ^ Z.of_nat 0) with 1. lia.
  - rewrite !fold_left_app. cbn [fold_left]. rewrite IH, app_length.
    replace (Z.of_nat (length b + length [x])) with (Z.of_nat (length b) + 1) by (cbn [length]; lia).
    rewrite Z.pow_add_r by lia. change (256 ^ 1) with 256. ring.
Qed.

Lemma from_be_one x : from_be [x] = x.
Proof. unfold from_be. cbn [fold_left]. lia. Qed.

Lemma from_be_be n : forall x, from_be (be n x) = x mod 256 ^ Z.of_nat n.
Proof.
  induction n as [|n IH]; intro x.
  - change (256 ^ Z.of_nat 0) with 1. rewrite Z.mod_1_r. reflexivity.
  - cbn [be]. rewrite from_be_app, from_be_one, IH.
    change (Z.of_nat (length [x mod 256])) with 1.
    replace (Z.of_nat (S n)) with (1 + Z.of_nat n) by lia. rewrite Z.pow_add_r by lia.
    change (256 ^ 1) with 256.
    rewrite (Z.rem_mul_r x 256 (256 ^ Z.of_nat n)) by (try (apply Z.pow_pos_nonneg); lia). ring.
Qed.

Lemma from_be_bound s : is_bytes s = true -> 0 <= from_be s < 256 ^ Z.of_nat (length s).
Proof.
  induction s as [|x s IH] using rev_ind; intro H.
  - cbn [length]. change (256 ^ Z.of_nat 0) with 1. unfold from_be. cbn [fold_left]. lia.
  - unfold is_bytes in *. rewrite forallb_app in H. apply andb_prop in H. destruct H as [H1 H2].
    specialize (IH H1). cbn [forallb] in H2. rewrite andb_true_r in H2. unfold is_byte in H2.
    apply andb_prop in H2. destruct H2 as [A B]. apply Z.leb_le in A. apply Z.ltb_lt in B.
    rewrite from_be_app, from_be_one, app_length.
    replace (Z.of_nat (length s + length [x])) with (Z.of_nat (length s) + 1) by (cbn [length]; lia).
    rewrite Z.pow_add_r by lia. change (Z.of_nat (length [x])) with 1. change (256 ^ 1) with 256. nia.
Qed.

Lemma be_is_bytes n : forall x, is_bytes (be n x) = true.
Proof.
  induction n as [|n IH]; intro x; [reflexivity|]. cbn [be]. unfold is_bytes in *. rewrite forallb_app, IH.
  cbn [forallb]. unfold is_byte. pose proof (Z.mod_pos_bound x 256 ltac:(lia)).
  rewrite (proj2 (Z.leb_le _ _)) by lia. rewrite (proj2 (Z.ltb_lt _ _)) by lia. reflexivity.
Qed.

Lemma be_from_be s : is_bytes s = true -> be (length s) (from_be s) = s.
Proof.
  induction s as [|x s IH] using rev_ind; intro H; [reflexivity|].
  unfold is_bytes in *. rewrite forallb_app in H. apply andb_prop in H. destruct H as [H1 H2].
  cbn [forallb] in H2. rewrite andb_true_r in H2. unfold is_byte in H2.
  apply andb_prop in H2. destruct H2 as [A B]. apply Z.leb_le in A. apply Z.ltb_lt in B.
  rewrite app_length. cbn [length]. rewrite Nat.add_1_r. cbn [be]. rewrite from_be_app, from_be_one.
  change (Z.of_nat (length [x])) with 1. change (256 ^ 1) with 256.
  rewrite Z.div_add_l by lia. rewrite (Z.div_small x) by lia. rewrite Z.add_0_r, IH by assumption.
  rewrite Z.add_comm, Z.mod_add by lia. rewrite Z.mod_small by lia. reflexivity.
Qed.

Lemma be_zero n : be n 0 = repeat 0 n.
Proof.
  induction n as [|n IH]; [reflexivity|]. cbn [be]. change (0 / 256) with 0. change (0 mod 256) with 0.
  rewrite IH. change [0] with (repeat 0 1). rewrite <- repeat_app. f_equal. lia.
Qed.

Lemma firstn_app_exact {A} (a b : list A) i : length a = i -> firstn i (a ++ b) = a.
Proof. intros <-. rewrite firstn_app, Nat.sub_diag, firstn_all. apply app_nil_r. Qed.
Lemma skipn_app_exact {A} (a b : list A) i : length a = i -> skipn i (a ++ b) = b.
Proof. intros <-. rewrite skipn_app, Nat.sub_diag, skipn_all. reflexivity. Qed.

(** The layout of FIPS 205, section 4.2. *)
Definition adr (l t y kp b c : Z) : bytes := be 4 l ++ be 12 t ++ be 4 y ++ be 4 kp ++ be 4 b ++ be 4 c.

Lemma set_mid p q r v i j : length p = i -> length (p ++ q) = j -> set_slice i j v (p ++ q ++ r) = p ++ v ++ r.
Proof.
  intros H1 H2. unfold set_slice. rewrite firstn_app_exact by assumption. f_equal. f_equal.
  rewrite app_assoc. apply skipn_app_exact. assumption.
Qed.

Lemma slice_mid (p q r : bytes) i j : length p = i -> length (p ++ q) = j -> slice i j (p ++ q ++ r) = q.
Proof.
  intros H1 H2. unfold slice. rewrite skipn_app_exact by assumption.
  apply firstn_app_exact. rewrite app_length in H2. lia.
Qed.

Ltac lens := rewrite ?app_length, ?be_length; reflexivity.

Lemma new_adr : new_adrs = adr 0 0 0 0 0 0.
Proof. reflexivity. Qed.
Lemma set_layer x l t y kp b c : set_layer_address x (adr l t y kp b c) = adr x t y kp b c.
Proof. unfold set_layer_address, adr. apply (set_mid []); lens. Qed.
Lemma set_tree x l t y kp b c : set_tree_address x (adr l t y kp b c) = adr l x y kp b c.
Proof. unfold set_tree_address, adr. apply set_mid; lens. Qed.
Lemma set_kp x l t y kp b c : set_key_pair_address x (adr l t y kp b c) = adr l t y x b c.
Proof.
  unfold set_key_pair_address, adr. rewrite !app_assoc.
  rewrite <- (app_assoc _ (be 4 b) (be 4 c)), <- (app_assoc _ (be 4 kp)).
  rewrite set_mid by lens. rewrite !app_assoc. reflexivity.
Qed.
Lemma set_b x l t y kp b c : set_slice 24 28 (be 4 x) (adr l t y kp b c) = adr l t y kp x c.
Proof.
  unfold adr. rewrite !app_assoc. rewrite <- (app_assoc _ (be 4 b) (be 4 c)).
  rewrite set_mid by lens. rewrite !app_assoc. reflexivity.
Qed.
Lemma set_height x l t y kp b c : set_tree_height x (adr l t y kp b c) = adr l t y kp x c.
Proof. apply set_b. Qed.
Lemma set_chain x l t y kp b c : set_chain_address x (adr l t y kp b c) = adr l t y kp x c.
Proof. apply set_b. Qed.
Lemma set_c x l t y kp b c : set_slice 28 32 (be 4 x) (adr l t y kp b c) = adr l t y kp b x.
Proof.
  unfold adr. rewrite !app_assoc. rewrite <- (app_nil_r (be 4 c)), (app_assoc _ (be 4 c) []).
  rewrite <- (app_assoc _ (be 4 c) []).
  rewrite set_mid by lens. rewrite !app_nil_r. reflexivity.
Qed.
Lemma set_index x l t y kp b c : set_tree_index x (adr l t y kp b c) = adr l t y kp b x.
Proof. apply set_c. Qed.
Lemma set_hash x l t y kp b c : set_hash_address x (adr l t y kp b c) = adr l t y kp b x.
Proof. apply set_c. Qed.

Lemma get_kp l t y kp b c : 0 <= kp < 2 ^ 32 -> get_key_pair_address (adr l t y kp b c) = kp.
Proof.
  intro H. unfold get_key_pair_address, adr. rewrite !app_assoc.
  rewrite <- (app_assoc _ (be 4 b) (be 4 c)), <- (app_assoc _ (be 4 kp)).
  rewrite slice_mid by lens. rewrite from_be_be. apply Z.mod_small. exact H.
Qed.
Lemma get_index l t y kp b c : 0 <= c < 2 ^ 32 -> get_tree_index (adr l t y kp b c) = c.
Proof.
  intro H. unfold get_tree_index, adr. rewrite !app_assoc. rewrite <- (app_nil_r (be 4 c)), (app_assoc _ (be 4 c) []).
  rewrite <- (app_assoc _ (be 4 c) []).
  rewrite slice_mid by lens. rewrite from_be_be. apply Z.mod_small. exact H.
Qed.

Lemma set_type y' l t y kp b c : set_type_and_clear y' (adr l t y kp b c) = adr l t y' 0 0 0.
Proof.
  unfold set_type_and_clear. unfold adr at 1.
  rewrite (app_assoc (be 4 l)). rewrite set_mid by lens.
  rewrite app_assoc.
  replace (be 4 kp ++ be 4 b ++ be 4 c) with ((be 4 kp ++ be 4 b ++ be 4 c) ++ []) by apply app_nil_r.
  rewrite set_mid by lens. unfold adr. rewrite app_nil_r. rewrite <- !app_assoc. reflexivity.
Qed.

Lemma adr_length l t y kp b c : length (adr l t y kp b c) = 32%nat.
Proof. unfold adr. lens. Qed.

Lemma be_inj n x y : be n x = be n y -> x mod 256 ^ Z.of_nat n = y mod 256 ^ Z.of_nat n.
Proof. intro H. rewrite <- !from_be_be, H. reflexivity. Qed.

Lemma app_inj (a b c e : bytes) : length a = length c -> a ++ b = c ++ e -> a = c /\ b = e.
Proof.
  intros H E. split.
  - apply (f_equal (firstn (length a))) in E. rewrite firstn_app_exact in E by reflexivity.
    rewrite firstn_app_exact in E by (symmetry; exact H). exact E.
  - apply (f_equal (skipn (length a))) in E. rewrite skipn_app_exact in E by reflexivity.
    rewrite skipn_app_exact in E by (symmetry; exact H). exact E.
Qed.

Lemma adrsc_adr l t y kp b c :
  adrsc (adr l t y kp b c) = [l mod 256] ++ be 8 t ++ [y mod 256] ++ be 4 kp ++ be 4 b ++ be 4 c.
Proof.
  unfold adrsc, adr, slice. cbn [be app firstn skipn Nat.sub]. reflexivity.
Qed.

Lemma adr_inj l t y kp b c l' t' y' kp' b' c' :
  0 <= l < 2 ^ 32 -> 0 <= t < 2 ^ 96 -> 0 <= y < 2 ^ 32 -> 0 <= kp < 2 ^ 32 -> 0 <= b < 2 ^ 32 -> 0 <= c < 2 ^ 32 ->
  0 <= l' < 2 ^ 32 -> 0 <= t' < 2 ^ 96 -> 0 <= y' < 2 ^ 32 -> 0 <= kp' < 2 ^ 32 -> 0 <= b' < 2 ^ 32 -> 0 <= c' < 2 ^ 32 ->
  adr l t y kp b c = adr l' t' y' kp' b' c' -> l = l' /\ t = t' /\ y = y' /\ kp = kp' /\ b = b' /\ c = c'.
Proof.
  intros. unfold adr in *.
  repeat match goal with H : _ ++ _ = _ ++ _ |- _ => apply app_inj in H; [destruct H|rewrite !be_length; reflexivity] end.
  repeat match goal with H : be _ _ = be _ _ |- _ => apply be_inj in H; rewrite !Z.mod_small in H by assumption end.
  repeat split; assumption.
Qed.

Lemma adrsc_inj l t y kp b c l' t' y' kp' b' c' :
  0 <= l < 256 -> 0 <= t < 2 ^ 64 -> 0 <= y < 256 -> 0 <= kp < 2 ^ 32 -> 0 <= b < 2 ^ 32 -> 0 <= c < 2 ^ 32 ->
  0 <= l' < 256 -> 0 <= t' < 2 ^ 64 -> 0 <= y' < 256 -> 0 <= kp' < 2 ^ 32 -> 0 <= b' < 2 ^ 32 -> 0 <= c' < 2 ^ 32 ->
  adrsc (adr l t y kp b c) = adrsc (adr l' t' y' kp' b' c') -> l = l' /\ t = t' /\ y = y' /\ kp = kp' /\ b = b' /\ c = c'.
Proof.
  intros. rewrite !adrsc_adr in *.
  repeat match goal with H : _ ++ _ = _ ++ _ |- _ => apply app_inj in H; [destruct H|rewrite ?be_length; reflexivity] end.
  repeat match goal with H : be _ _ = be _ _ |- _ => apply be_inj in H; rewrite !Z.mod_small in H by assumption end.
  repeat match goal with H : [_ mod 256] = [_ mod 256] |- _ =>
    apply (f_equal (fun l => hd 0 l)) in H; cbn [hd] in H; rewrite !Z.mod_small in H by assumption end.
  repeat split; assumption.
Qed.
