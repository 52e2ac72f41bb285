(** ML-KEM-768 with toy hash functions: the hypotheses of the X-Wing theorems can be met.  The functions are those of
    MlKemWitness.v, with constant streams for the matrix and the noise. *)
From Verif Require Import LatFacts LatRing MlKemNtt MlKemCodec MlKemProofs MlKemKem MlKemMore MlKemWitness.
From Verif Require MlKemModel.
Local Open Scope Z_scope.
Definition toy2 : hashes :=
  {| sha3_256 := toy_hash 32; sha3_512 := fun x => toy_hash 64 (firstn 32 x);
     shake256 := fun _ n => repeat 0 n; xof128 := fun _ => repeat 5 384 |}.
Lemma toy2_lengths : hash_lengths toy2.
Proof.
  split; [intro; apply toy_gen_length|]. split; [intro; apply toy_gen_length|]. intro. cbn [toy2 xof128]. vm_compute. reflexivity.
Qed.
Lemma ex_no_failure768 : no_failure toy2 ml_kem_768 ex_rho ex_sigma ex_r ex_m.
Proof. apply no_failure_check; [apply toy2_lengths|]. vm_cast_no_check (eq_refl true). Qed.
Lemma ex_stream768 : (256 <=? length (accepted_candidates 3329 (repeat 5%Z 384)))%nat = true.
Proof. vm_compute. reflexivity. Qed.
Lemma ex_keygen768 : exists ek dk, keygen_internal toy2 ml_kem_768 ex_d ex_z = Ok (ek, dk).
Proof.
  apply keygen_total; [right; left; reflexivity|apply toy2_lengths|].
  intros i j _ _. pose proof ex_stream768 as E. apply Nat.leb_le in E. exact E.
Qed.
Lemma toy2_g x y : length x = 32%nat -> hash_g toy2 (x ++ y) = (firstn 32 (toy_hash 64 x), skipn 32 (toy_hash 64 x)).
Proof. exact (toy_g x y). Qed.
