(** A concrete instance of the hash functions, used to show that the hypotheses
    of the ML-DSA theorems are met. *)
From Verif Require Import LatFacts MlDsaSig.
Local Open Scope Z_scope.

(** A toy generator and toy digests; nothing depends on their quality.  The
    128-bit XOF is constant, which makes every entry of A the same polynomial. *)
Fixpoint toy_gen (n : nat) (s : Z) : bytes :=
  match n with O => [] | S n' => (s / 256) mod 256 :: toy_gen n' ((s * 25173 + 13849) mod 65536) end.
Definition toy_seed (x : bytes) : Z := fold_left (fun a b => (a * 31 + b + 7) mod 65521) x 1.
Definition toy_hash (n : nat) (x : bytes) : bytes := toy_gen n (toy_seed x).

Lemma toy_gen_length n : forall s, length (toy_gen n s) = n.
Proof. induction n; intro s; simpl; [reflexivity|]. rewrite IHn. reflexivity. Qed.
Lemma toy_gen_bytes n : forall s, is_bytes (toy_gen n s) = true.
Proof.
  induction n as [|n IH]; intro s; [reflexivity|]. cbn [toy_gen]. apply bytes_cons. split; [|apply IH].
  apply Z.mod_pos_bound. lia.
Qed.

Definition toy : hashes :=
  {| sha256 := toy_hash 32; sha512 := toy_hash 64; shake128 := fun x n => toy_hash n x;
     shake256 := fun x n => toy_hash n x; xof128 := fun _ => repeat 3 768; xof256 := toy_hash 400 |}.

Lemma toy_lengths : hash_lengths toy.
Proof.
  split; [intros; split; [apply toy_gen_length|apply toy_gen_bytes]|].
  split; [intro; reflexivity|intro; apply toy_gen_bytes].
Qed.

Definition ex_a : list Z := 197379 :: repeat 0 255.
Lemma toy_rej : rej_ntt_poly (repeat 3 768) = Ok (repeat 197379 256).
Proof. vm_compute. reflexivity. Qed.
Lemma toy_A_eq : ntt_inverse (repeat 197379 256) = ex_a.
Proof. vm_compute. reflexivity. Qed.
Lemma toy_A rho i j : A toy rho i j = ex_a.
Proof. unfold A. cbn [xof128 toy]. rewrite toy_rej. exact toy_A_eq. Qed.

(** * Products with few nonzero coefficients *)
Definition nonzero (n : nat) (f : list Z) : list nat := filter (fun i => negb (coeff i f =? 0)) (seq 0 n).
Definition rot (n i : nat) (g : list Z) : list Z := map Z.opp (skipn (n - i) g) ++ firstn (n - i) g.
Fixpoint addmul (a : Z) (x y : list Z) : list Z :=
  match x, y with u :: x', v :: y' => u + a * v :: addmul a x' y' | _, _ => [] end.
Definition sp_ring_mul (m : Z) (n : nat) (f g : list Z) : list Z :=
  map (fun x => x mod m)
      (fold_right (fun i acc => addmul (coeff i f) acc (rot n i g)) (repeat 0 n) (nonzero n f)).
Definition sp_mul : list Z -> list Z -> list Z := sp_ring_mul 8380417 256.
Lemma addmul_length a : forall x y, length x = length y -> length (addmul a x y) = length x.
Proof. induction x as [|u x IH]; intros [|v y] H; try discriminate; [reflexivity|]. cbn [addmul length]. rewrite IH by (injection H; auto). reflexivity. Qed.
Lemma addmul_nth a : forall x y c, length x = length y -> nthz c (addmul a x y) = nthz c x + a * nthz c y.
Proof.
  unfold nthz. induction x as [|u x IH]; intros [|v y] c H; try discriminate; [destruct c; cbn; lia|].
  destruct c as [|c]; cbn [addmul nth]; [reflexivity|]. apply IH. injection H; auto.
Qed.
Lemma fold_filter (F : nat -> Z) (P : nat -> bool) l : (forall i, P i = false -> F i = 0) ->
  fold_right (fun i a => a + F i) 0 (filter P l) = fold_right (fun i a => a + F i) 0 l.
Proof.
  intro H. induction l as [|i l IH]; [reflexivity|]. cbn [filter fold_right]. destruct (P i) eqn:E.
  - cbn [fold_right]. rewrite IH. reflexivity.
  - rewrite IH, (H i E). lia.
Qed.
Lemma zsum_fold n (F : nat -> Z) : zsum n F = fold_right (fun i a => a + F i) 0 (seq 0 n).
Proof.
  assert (G : forall l x, fold_right (fun i a => a + F i) x l = fold_right (fun i a => a + F i) 0 l + x).
  { induction l as [|i l IH]; intro x; cbn [fold_right]; [lia|]. rewrite IH. lia. }
  induction n as [|n IH]; [reflexivity|]. cbn [zsum]. rewrite seq_S, fold_right_app. cbn [fold_right Nat.add].
  rewrite G, IH. lia.
Qed.
Section Sparse.
Variables (m : Z) (n : nat).
Lemma rot_length i g : length g = n -> (i <= n)%nat -> length (rot n i g) = n.
Proof. intros L H. unfold rot. rewrite app_length, map_length, skipn_length, firstn_length. lia. Qed.
Lemma rot_nth i g c : length g = n -> (i < n)%nat -> (c < n)%nat ->
  nthz c (rot n i g) = if (i <=? c)%nat then coeff (c - i) g else - coeff (n + c - i) g.
Proof.
  intros L Hi Hc. unfold rot, nthz, coeff. destruct (Nat.leb_spec i c) as [H|H].
  - rewrite app_nth2; rewrite map_length, skipn_length, L; [|lia].
    rewrite <- (firstn_skipn (n - i) g) at 2. rewrite app_nth1 by (rewrite firstn_length; lia). f_equal. lia.
  - rewrite app_nth1 by (rewrite map_length, skipn_length; lia).
    rewrite (nth_indep _ 0 (- 0)) by (rewrite map_length, skipn_length; lia). rewrite map_nth. f_equal.
    rewrite <- (firstn_skipn (n - i) g) at 2. rewrite app_nth2 by (rewrite firstn_length; lia). rewrite firstn_length. f_equal. lia.
Qed.
Lemma sp_acc f g l : length g = n -> (forall i, In i l -> (i < n)%nat) ->
  length (fold_right (fun i acc => addmul (coeff i f) acc (rot n i g)) (repeat 0 n) l) = n /\
  forall c, (c < n)%nat -> nthz c (fold_right (fun i acc => addmul (coeff i f) acc (rot n i g)) (repeat 0 n) l) =
    fold_right (fun i a => a + coeff i f * (if (i <=? c)%nat then coeff (c - i) g else - coeff (n + c - i) g)) 0 l.
Proof.
  intro L. induction l as [|i l IH]; intro H.
  - split; [apply repeat_length|]. intros c Hc. cbn [fold_right]. unfold nthz. apply nth_repeat.
  - cbn [fold_right]. destruct (IH (fun j Hj => H j (or_intror Hj))) as [La Na]. pose proof (H i (or_introl eq_refl)) as Hi.
    assert (R : length (rot n i g) = n) by (apply rot_length; [exact L|lia]).
    split; [rewrite addmul_length by congruence; exact La|]. intros c Hc. rewrite addmul_nth by congruence.
    rewrite Na by exact Hc. rewrite rot_nth by assumption. reflexivity.
Qed.
Lemma ring_mul_sp f g : length g = n -> ring_mul m n f g = sp_ring_mul m n f g.
Proof.
  intro L. destruct (sp_acc f g (nonzero n f) L) as [La Na].
  { intros i Hi. apply filter_In in Hi as [Hi _]. apply in_seq in Hi. lia. }
  unfold sp_ring_mul. apply nthz_ext; [rewrite ring_mul_length, map_length; symmetry; exact La|].
  intros c Hc. rewrite ring_mul_length in Hc. rewrite nthz_map by lia. rewrite Na by exact Hc.
  unfold ring_mul. rewrite nthz_map_seq by exact Hc.
  f_equal. rewrite zsum_fold. symmetry. unfold nonzero.
  apply fold_filter. intros i H. apply negb_false_iff, Z.eqb_eq in H. rewrite H. ring.
Qed.
End Sparse.
Lemma rmul_sp f g : length g = 256%nat -> rmul f g = sp_mul f g.
Proof. intro L. unfold rmul, sp_mul. apply ring_mul_sp. exact L. Qed.
Lemma rsum_ext n f g : (forall i, (i < n)%nat -> f i = g i) -> rsum n f = rsum n g.
Proof.
  induction n as [|n IH]; intro H; [reflexivity|]. cbn [rsum]. rewrite IH by (intros; apply H; lia). rewrite (H n) by lia. reflexivity.
Qed.

(** * Key generation and one signing attempt without transforms *)
Section Fast.
Variable P : params.
Variable toy : hashes.
Variables (ex_a : list Z) (ah_ex : list (list (list Z))).
Hypothesis toy_lengths : hash_lengths toy.
Hypothesis toy_A : forall rho i j, A toy rho i j = ex_a.
Hypothesis toy_expand : forall rho, expand_a toy P rho = Ok ah_ex.
Hypothesis P_good : good_params P.
Hypothesis P_dim : (k P < 256)%nat /\ (ell P < 256)%nat.
Definition fAv (y : list (list Z)) (i : nat) : list Z := rsum (ell P) (fun j => sp_mul ex_a (nthp j y)).
Lemma fAv_ok rho y i : polys (ell P) y -> Av toy P rho y i = fAv y i.
Proof using toy_A.
  intro Py. unfold Av, fAv. apply rsum_ext. intros j Hj. rewrite toy_A. apply rmul_sp. apply (polys_nth (ell P)); assumption.
Qed.

Definition f_t (s1 s2 : list (list Z)) : list (list Z) :=
  map (fun i => radd (fAv s1 i) (nthp i s2)) (seq 0 (k P)).
Lemma f_t_ok rho s1 s2 : polys (ell P) s1 -> key_t toy P rho s1 s2 = f_t s1 s2.
Proof using toy_A. intro Ps. unfold key_t, f_t. apply map_ext. intro i. rewrite fAv_ok by exact Ps. reflexivity. Qed.

Definition f_attempt (s1 s2 t0 : list (list Z)) (mu rhopp : bytes) : bool :=
  match expand_mask toy P rhopp 0 with
  | Err _ => false
  | Ok y =>
    let w := map (fAv y) (seq 0 (k P)) in
    match w1_encode P (high_bits P w) with
    | Err _ => false
    | Ok w1t =>
      match sample_in_ball P (xof256 toy (shake256 toy (mu ++ w1t) (Nat.div (lam P) 4))) with
      | Err _ => false
      | Ok c =>
        let cs1 := map (sp_mul c) s1 in let cs2 := map (sp_mul c) s2 in let ct0 := map (sp_mul c) t0 in
        let z := map (fun i => padd (nthp i y) (nthp i cs1)) (seq 0 (ell P)) in
        let r := map (fun i => psub (nthp i w) (nthp i cs2)) (seq 0 (k P)) in
        let h_r := map (fun i => padd (psub (nthp i w) (nthp i cs2)) (nthp i ct0)) (seq 0 (k P)) in
        let h := make_hint P (map pneg ct0) h_r in
        negb ((inf_norm z >=? gam1 P - beta P) || (inf_norm (low_bits P r) >=? gam2 P - beta P)) &&
        negb ((inf_norm ct0 >=? gam2 P) || (omega P <? weight h)%nat) && (0 <? weight h)%nat
      end
    end
  end.

Lemma vmul_sp c n v : polys n v -> vmul c v = map (sp_mul c) v.
Proof. intros [_ F]. unfold vmul. apply map_ext_in. intros f Hf. apply rmul_sp. rewrite Forall_forall in F. apply F. exact Hf. Qed.

Lemma f_attempt_ok (rho : bytes) s1 s2 t0 mu rhopp : polys (ell P) s1 -> polys (k P) s2 -> polys (k P) t0 ->
  f_attempt s1 s2 t0 mu rhopp = true ->
  exists r, sign_attempt toy P ah_ex (map ntt s1) (map ntt s2) (map ntt t0) mu rhopp 0 = Ok (Some r) /\ nonzeros (snd r) <> 0%nat.
Proof.
  intros H1 H2 H0 E. unfold f_attempt in E. unfold sign_attempt.
  destruct (expand_mask toy P rhopp 0) as [y|] eqn:Ey; [|discriminate]. cbn [bind].
  assert (Py : polys (ell P) y).
  { unfold expand_mask in Ey. destruct (mapM_ok_inv _ _ _ Ey) as [L N]. rewrite seq_length in L. split; [exact L|].
    apply Forall_forall. intros f Hf. destruct (In_nth _ _ [] Hf) as (i & Hi & <-).
    specialize (N i 0%nat []). rewrite seq_length in N. specialize (N ltac:(lia)).
    unfold bit_unpack in N. destruct (mapM_ok_inv _ _ _ N) as [L2 _]. rewrite seq_length in L2. exact L2. }
  rewrite (mv_intt toy P toy_lengths P_dim rho ah_ex y (toy_expand rho) Py).
  replace (map (Av toy P rho y) (seq 0 (k P))) with (map (fAv y) (seq 0 (k P)))
    by (apply map_ext; intro; symmetry; apply fAv_ok; exact Py).
  destruct (w1_encode P _) as [w1t|]; [|discriminate]. cbn [bind].
  destruct (sample_in_ball P _) as [c|] eqn:Ec; [|discriminate]. cbn [bind].
  assert (Lc : length c = 256%nat).
  { apply sample_in_ball_ok in Ec; [apply Ec|destruct P_good as (_ & _ & _ & _ & ? & _); lia|apply toy_lengths]. }
  rewrite (vmul_model c s1 _ Lc H1), (vmul_model c s2 _ Lc H2), (vmul_model c t0 _ Lc H0), (vmul_sp c _ _ H1), (vmul_sp c _ _ H2), (vmul_sp c _ _ H0). cbv zeta in E.
  apply andb_true_iff in E as [E E3]. apply andb_true_iff in E as [E1 E2]. apply negb_true_iff in E1, E2. rewrite E1, E2.
  eexists. split; [reflexivity|]. cbn [snd]. rewrite <- weight_nonzeros. apply Nat.ltb_lt in E3.
  intro Z. rewrite Z in E3. apply (Nat.lt_irrefl _ E3).
Qed.

Definition f_run (xi mp : bytes) : bool :=
  let se := shake256 toy (xi ++ integer_to_bytes (Z.of_nat (k P)) 1 ++ integer_to_bytes (Z.of_nat (ell P)) 1) 128 in
  match expand_s toy P (slice 32 96 se) with
  | Err _ => false
  | Ok (s1, s2) =>
    let '(t1, t0) := power2round P (f_t s1 s2) in
    match pk_encode P (slice 0 32 se) t1 with
    | Err _ => false
    | Ok pk =>
      let mu := shake256 toy (shake256 toy pk 64 ++ mp) 64 in
      f_attempt s1 s2 t0 mu (shake256 toy (slice 96 128 se ++ repeat 0 32 ++ mu) 64)
    end
  end.

Lemma f_run_ok xi mp : f_run xi mp = true -> exists pk sk sg,
  keygen_internal toy P xi = Ok (pk, sk) /\ sign_internal toy P 1 sk mp (repeat 0 32) = Some (Ok sg) /\
  exists ct z h, sig_decode P sg = Ok (ct, z, Some h) /\ nonzeros h <> 0%nat.
Proof using All.
  unfold f_run. fold (seeds toy P xi). set (se := seeds toy P xi). intro E.
  destruct (expand_s toy P (slice 32 96 se)) as [[s1 s2]|] eqn:Es; [|discriminate].
  destruct (keygen_eq toy P P_good toy_lengths P_dim xi ah_ex s1 s2 (toy_expand _) Es)
    as (pk & sk & Ek & Ep & V1 & V2 & V0 & Vt1 & Ht & Dp & Ds & _).
  fold se in Ep, V0, Vt1, Ht, Dp, Ds. rewrite (f_t_ok _ s1 s2 (vec_polys _ _ _ _ V1)) in Ep, V0, Vt1, Ht, Dp, Ds.
  destruct (power2round P (f_t s1 s2)) as [t1 t0]. cbn [fst snd] in *. rewrite Ep in E. cbv zeta in E.
  exists pk, sk.
  apply (f_attempt_ok (slice 0 32 se)) in E; try (eapply vec_polys; eassumption). destruct E as ([[ct z] h] & At & Nh). cbn [snd] in Nh.
  destruct (attempt_ok toy P P_good toy_lengths P_dim (slice 0 32 se) ah_ex s1 s2 t1 t0 (toy_expand _) V1 V2 V0 (t1_ok_polys _ _ Vt1))
    with (2 := At) as (c & w1 & w1t & Ec & Lc & Ew & Ect & Zok & Nz & Hi & Uh).
  { intros i x Hi Hx. rewrite Ht by assumption. apply radd_nth. exact Hx. }
  assert (Lct : length ct = Nat.div (lam P) 4) by (rewrite Ect; apply toy_lengths).
  destruct (sig_roundtrip P ct (zc z) h P_good Lct Zok Hi) as (sg & G1 & G2 & G3 & G4).
  exists sg. split; [exact Ek|]. split.
  - unfold sign_internal. rewrite Ds. cbn [sk_rho sk_kk sk_tr sk_s1 sk_s2 sk_t0]. rewrite toy_expand.
    cbn [sign_loop]. rewrite At. fold (zc z). rewrite G1. reflexivity.
  - exists ct, (zc z), h. split; [exact G4|exact Nh].
Qed.
End Fast.

Definition ah_ex : list (list (list Z)) := repeat (repeat (repeat 197379 256) 4) 4.
Lemma toy_expand rho : expand_a toy ml_dsa_44 rho = Ok ah_ex.
Proof.
  unfold expand_a. cbn [xof128 toy].
  rewrite (mapM_ok_map _ (fun _ => repeat (repeat 197379 256) 4)); [reflexivity|].
  intros r _. rewrite (mapM_ok_map _ (fun _ => repeat 197379 256)); [reflexivity|]. intros s _. exact toy_rej.
Qed.
Definition ex_xi : bytes := repeat 7 32.
Definition ex_mp (m : bytes) : bytes := [0; 2; 5; 6] ++ m.
Lemma ex_run : f_run ml_dsa_44 toy ex_a ex_xi (ex_mp [2]) = true.
Proof. vm_compute. reflexivity. Qed.

(** ML-DSA-44 with these hashes: a key pair, and a first-attempt signature with a nonzero hint. *)
Lemma ex_signature : exists pk sk sg,
  keygen_internal toy ml_dsa_44 ex_xi = Ok (pk, sk) /\
  sign_internal toy ml_dsa_44 1 sk (ex_mp [2]) (repeat 0 32) = Some (Ok sg) /\
  exists ct z h, sig_decode ml_dsa_44 sg = Ok (ct, z, Some h) /\ nonzeros h <> 0%nat.
Proof.
  apply (f_run_ok ml_dsa_44 toy ex_a ah_ex toy_lengths toy_A toy_expand).
  - apply param_sets_good. left. reflexivity.
  - split; apply Nat.ltb_lt; reflexivity.
  - exact ex_run.
Qed.
