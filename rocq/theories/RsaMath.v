(** Correctness of textbook RSA, for keys made of two different primes (used by TradKemProofs.v). *)
From Coq Require Import ZArith Znumtheory Zpow_facts Lia List Permutation.
Import ListNotations.
Open Scope Z_scope.

(** Fermat's little theorem: multiplying by z permutes 1 .. p - 1. *)
Definition range (n : nat) : list Z := map (fun i => Z.of_nat (S i)) (seq 0 n).
Definition prod (l : list Z) : Z := fold_right Z.mul 1 l.
Lemma range_in n x : In x (range n) <-> 1 <= x <= Z.of_nat n.
Proof.
  unfold range. rewrite in_map_iff. split.
  - intros (i & <- & H). apply in_seq in H. lia.
  - intro H. exists (Z.to_nat (x - 1)). split; [lia|]. apply in_seq. lia.
Qed.
Lemma range_nodup n : NoDup (range n).
Proof. apply FinFun.Injective_map_NoDup; [intros a b; lia|apply seq_NoDup]. Qed.
Lemma prod_perm l l' : Permutation l l' -> prod l = prod l'.
Proof. induction 1; cbn [prod fold_right] in *; unfold prod in *; lia. Qed.
Lemma prod_scale z p l : p <> 0 -> prod (map (fun i => z * i mod p) l) mod p = (z ^ Z.of_nat (length l) * prod l) mod p.
Proof.
  intro P. induction l as [|x l IH]; [reflexivity|]. cbn [map length]. change (prod (?a :: ?b)) with (a * prod b).
  rewrite Zmult_mod, IH, <- Zmult_mod, Zmult_mod, Zmod_mod, <- Zmult_mod.
  rewrite Nat2Z.inj_succ, Z.pow_succ_r by lia. f_equal. change (fold_right Z.mul 1 (x :: l)) with (x * prod l). change (prod (x :: l)) with (x * prod l). ring.
Qed.
Lemma prod_coprime p l : prime p -> (forall x, In x l -> 1 <= x < p) -> rel_prime (prod l) p.
Proof.
  intro P. induction l as [|x l IH]; intro H; [apply rel_prime_1|].
  change (prod (x :: l)) with (x * prod l). apply rel_prime_sym, rel_prime_mult; apply rel_prime_sym.
  - apply rel_prime_le_prime; [exact P|]. apply H. left. reflexivity.
  - apply IH. intros y Hy. apply H. right. exact Hy.
Qed.
Lemma fermat_unit z p : prime p -> ~ (p | z) -> z ^ (p - 1) mod p = 1 mod p.
Proof.
  intros P N. pose proof (prime_ge_2 _ P) as G. set (n := Z.to_nat (p - 1)). assert (En : Z.of_nat n = p - 1) by (unfold n; lia).
  assert (R : rel_prime p z) by (apply prime_rel_prime; assumption).
  assert (Pm : Permutation (map (fun i => z * i mod p) (range n)) (range n)).
  { apply NoDup_Permutation_bis.
    - assert (Inj : forall l, NoDup l -> (forall x, In x l -> 1 <= x < p) -> NoDup (map (fun i => z * i mod p) l)).
      { induction l as [|x l IH]; intros D B; [constructor|]. inversion D as [|a b D1 D2]; subst. cbn [map]. constructor.
        - rewrite in_map_iff. intros (y & E & I). apply D1.
          assert (Dv : (p | z * (y - x))).
          { apply Z.mod_divide; [lia|]. rewrite Z.mul_sub_distr_l, Zminus_mod, E, Z.sub_diag. apply Zmod_0_l. }
          apply Gauss in Dv; [|exact R]. pose proof (B x (or_introl eq_refl)). pose proof (B y (or_intror I)).
          assert (y = x) as <-; [|exact I]. destruct Dv as [k Hk]. assert (k = 0) by nia. subst k. lia.
        - apply IH; [exact D2|]. intros y I. apply B. right. exact I. }
      apply Inj; [apply range_nodup|]. intros x I. apply range_in in I. lia.
    - rewrite map_length. lia.
    - intros y I. apply in_map_iff in I. destruct I as (x & <- & I). apply range_in in I. apply range_in.
      pose proof (Z.mod_pos_bound (z * x) p). assert (z * x mod p <> 0); [|lia]. intro E. apply Z.mod_divide in E; [|lia].
      apply Gauss in E; [|exact R]. destruct E as [k Hk]. rewrite En in I. destruct (Z_le_gt_dec k 0); nia. }
  pose proof (prod_scale z p (range n)) as S. rewrite (prod_perm _ _ Pm) in S. unfold range in S at 2. rewrite map_length, seq_length, En in S.
  specialize (S ltac:(lia)).
  assert (C : rel_prime p (prod (range n))).
  { apply rel_prime_sym, prod_coprime; [exact P|]. intros x I. apply range_in in I. lia. }
  assert (Dv : (p | prod (range n) * (z ^ (p - 1) - 1))).
  { apply Z.mod_divide; [lia|]. replace (prod (range n) * (z ^ (p - 1) - 1)) with (z ^ (p - 1) * prod (range n) - prod (range n)) by ring.
    rewrite Zminus_mod, <- S, Z.sub_diag. apply Zmod_0_l. }
  apply Gauss in Dv; [|exact C]. destruct Dv as [k Hk]. replace (z ^ (p - 1)) with (1 + k * p) by lia. apply Z_mod_plus_full.
Qed.
Lemma fermat (z p : Z) : prime p -> 0 <= z -> z ^ p mod p = z mod p.
Proof.
  intros P Hz. pose proof (prime_ge_2 _ P) as G. replace p with (1 + (p - 1)) at 1 by lia. rewrite Z.pow_add_r, Z.pow_1_r by lia.
  destruct (Zdivide_dec p z) as [[k ->]|N].
  - rewrite <- Z.mul_assoc, (Z.mul_comm p), Z.mul_assoc, !Z_mod_mult. reflexivity.
  - rewrite Zmult_mod, (fermat_unit z p P N), <- Zmult_mod, Z.mul_1_r. reflexivity.
Qed.

Lemma power_one_more (z p : Z) k : prime p -> 0 <= z -> z ^ (1 + Z.of_nat k * (p - 1)) mod p = z mod p.
Proof.
  intros P Hz. pose proof (prime_ge_2 _ P) as G. induction k as [|k IH].
  - replace (1 + Z.of_nat 0 * (p - 1)) with 1 by lia. rewrite Z.pow_1_r. reflexivity.
  - replace (1 + Z.of_nat (S k) * (p - 1)) with (Z.of_nat k * (p - 1) + p) by lia.
    rewrite Z.pow_add_r by nia. rewrite Zmult_mod, (fermat z p P Hz), <- Zmult_mod.
    replace (z ^ (Z.of_nat k * (p - 1)) * z) with (z ^ (1 + Z.of_nat k * (p - 1))); [exact IH|].
    rewrite Z.pow_add_r by nia. rewrite Z.pow_1_r. ring.
Qed.

Lemma rsa_prime (z p x : Z) : prime p -> 0 <= z -> 0 <= x -> x mod (p - 1) = 1 mod (p - 1) -> 1 <= x -> (p | z ^ x - z).
Proof.
  intros P Hz Hx E Hx1. pose proof (prime_ge_2 _ P) as G.
  assert (D : (p - 1 | x - 1)).
  { apply Z.mod_divide; [lia|]. rewrite Zminus_mod, E, Z.sub_diag. apply Zmod_0_l. }
  destruct D as [k Ek]. assert (0 <= k) by nia.
  apply Z.mod_divide; [lia|]. replace x with (1 + Z.of_nat (Z.to_nat k) * (p - 1)) by lia.
  rewrite Zminus_mod, power_one_more by assumption. rewrite Z.sub_diag. apply Zmod_0_l.
Qed.

Theorem rsa_correct (p q e d z : Z) : prime p -> prime q -> p <> q -> 0 < e -> 0 < d ->
  (e * d) mod (p - 1) = 1 mod (p - 1) -> (e * d) mod (q - 1) = 1 mod (q - 1) -> 0 <= z < p * q ->
  (z ^ e mod (p * q)) ^ d mod (p * q) = z.
Proof.
  intros P Q N He Hd Ep Eq [Hz Lz]. pose proof (prime_ge_2 _ P) as Gp. pose proof (prime_ge_2 _ Q) as Gq.
  rewrite <- Zpower_mod by nia. rewrite <- Z.pow_mul_r by lia. assert (X : 1 <= e * d) by nia.
  pose proof (rsa_prime z p (e * d) P Hz ltac:(lia) Ep X) as Dp. pose proof (rsa_prime z q (e * d) Q Hz ltac:(lia) Eq X) as Dq.
  assert (R : rel_prime p q).
  { apply prime_rel_prime; [exact P|]. intro D. destruct (prime_divisors _ Q _ D) as [H|[H|[H|H]]]; lia. }
  assert (D : (p * q | z ^ (e * d) - z)).
  { destruct Dp as [a Ea]. rewrite Ea in Dq. rewrite Z.mul_comm in Dq. apply Gauss in Dq; [|apply rel_prime_sym, R].
    destruct Dq as [b Eb]. exists b. rewrite Ea, Eb. ring. }
  destruct D as [k Ek]. replace (z ^ (e * d)) with (z + k * (p * q)) by lia. rewrite Z_mod_plus_full. apply Z.mod_small. lia.
Qed.
