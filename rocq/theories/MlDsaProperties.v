(** Properties C28-C33 and C50-C52: the ML-DSA implementation in
    pq_logic/fips/fips204.py.  The hash functions [hs] are arbitrary throughout;
    [hash_lengths hs] says that they return as many bytes as they are asked for.
    [param_sets] are ML-DSA-44, ML-DSA-65 and ML-DSA-87. *)
From Verif Require Import LatFacts MlDsaNtt MlDsaCodec MlDsaHint MlDsaRound MlDsaRing MlDsaSample MlDsaEnc MlDsaSig MlDsaTop MlDsaWitness.
Local Open Scope Z_scope.
Local Opaque ntt ntt_inverse mul_ntt.

(** ** C28: bit packing *)
Theorem C28_integer_bits : forall (x : Z) (alpha : nat),
  bits_to_integer (integer_to_bits x alpha) alpha = Ok (x mod 2 ^ Z.of_nat alpha).
Proof. exact integer_bits_inverse. Qed.
Theorem C28_bits_integer : forall y : list Z, Forall (fun b => b = 0 \/ b = 1) y ->
  exists x, bits_to_integer y (length y) = Ok x /\ 0 <= x < 2 ^ Z.of_nat (length y) /\ integer_to_bits x (length y) = y.
Proof. exact bits_integer_inverse. Qed.
Example C28_integer_bits_ex : integer_to_bits 13 5 = [1; 0; 1; 1; 0] /\ bits_to_integer [1; 0; 1; 1; 0] 5 = Ok 13.
Proof. split; reflexivity. Qed.

Theorem C28_simple_roundtrip : forall (w : list Z) (b : Z), length w = 256%nat -> Forall (fun x => 0 <= x <= b) w ->
  exists v, simple_bit_pack w b = Ok v /\ length v = (32 * bit_length b)%nat /\ is_bytes v = true /\ simple_bit_unpack v b = Ok w.
Proof. exact simple_pack_ok. Qed.
Theorem C28_simple_canonical : forall (v : bytes) (b : Z), length v = (32 * bit_length b)%nat -> is_bytes v = true ->
  exists w, simple_bit_unpack v b = Ok w /\ length w = 256%nat /\
    Forall (fun x => 0 <= x < 2 ^ Z.of_nat (bit_length b)) w /\ simple_bit_pack w b = Ok v.
Proof. exact simple_unpack_ok. Qed.
Theorem C28_roundtrip : forall (w : list Z) (a b : Z), length w = 256%nat -> Forall (fun x => - a <= x <= b) w ->
  exists v, bit_pack w a b = Ok v /\ length v = (32 * bit_length (a + b))%nat /\ is_bytes v = true /\ bit_unpack v a b = Ok w.
Proof. exact bit_pack_ok. Qed.
Theorem C28_canonical : forall (v : bytes) (a b : Z), length v = (32 * bit_length (a + b))%nat -> is_bytes v = true ->
  exists w, bit_unpack v a b = Ok w /\ length w = 256%nat /\
    Forall (fun x => b - 2 ^ Z.of_nat (bit_length (a + b)) < x <= b) w /\ bit_pack w a b = Ok v.
Proof. exact bit_unpack_ok. Qed.
Theorem C28_short : forall (v : bytes) (a b : Z),
  ((length v < 32 * bit_length b)%nat -> simple_bit_unpack v b = Err EIndexError) /\
  ((length v < 32 * bit_length (a + b))%nat -> bit_unpack v a b = Err EIndexError).
Proof. intros v a b. split; [apply simple_unpack_short|apply bit_unpack_short]. Qed.
(** [bit_length] is Python's: the least number of bits the value fits in. *)
Theorem C28_bit_length : forall b n, 0 <= b -> b < 2 ^ Z.of_nat n -> (bit_length b <= n)%nat /\ b < 2 ^ Z.of_nat (bit_length b).
Proof.
  intros b n Hb Hn. split; [|apply bit_length_bound; exact Hb]. unfold bit_length.
  destruct (Z.eqb_spec b 0) as [H|H]; [lia|]. assert (H' : 0 < b) by lia. rewrite Z.abs_eq by exact Hb.
  apply (Z.log2_lt_pow2 _ _ H') in Hn. pose proof (Z.log2_nonneg b). lia.
Qed.
Example C28_roundtrip_ex :
  let w := map (fun i => Z.of_nat i mod 5 - 2) (seq 0 256) in
  Forall (fun x => - (2) <= x <= 2) w /\ bind (bit_pack w 2 2) (fun v => bit_unpack v 2 2) = Ok w /\
  bind (simple_bit_pack (map (fun x => x + 2) w) 15) (fun v => simple_bit_unpack v 15) = Ok (map (fun x => x + 2) w).
Proof.
  cbv zeta. split; [|split; vm_compute; reflexivity].
  apply Forall_map, Forall_forall. intros i _. pose proof (Z.mod_pos_bound (Z.of_nat i) 5 ltac:(lia)). lia.
Qed.
Example C28_short_ex : bit_unpack (repeat 1 95) 2 2 = Err EIndexError.
Proof. reflexivity. Qed.

(** ** C29: hints *)
Theorem C29_roundtrip : forall p h, In p param_sets -> is_hint (k p) (omega p) h ->
  exists y, hint_bit_pack p h = Ok y /\ length y = (omega p + k p)%nat /\ is_bytes y = true /\
    hint_bit_unpack p y = Ok (Some h).
Proof. intros p h Hp. apply hint_roundtrip. destruct (param_sets_good p Hp) as (_ & _ & _ & H & _). exact H. Qed.
Theorem C29_canonical : forall p y h, In p param_sets -> length y = (omega p + k p)%nat -> is_bytes y = true ->
  hint_bit_unpack p y = Ok (Some h) -> is_hint (k p) (omega p) h /\ hint_bit_pack p h = Ok y.
Proof. intros p y h Hp. apply hint_unpack_inv. destruct (param_sets_good p Hp) as (_ & _ & _ & H & _). exact H. Qed.
(** Two strings that are both accepted as the same hint are the same string. *)
Theorem C29_unmalleable : forall p y y' h, In p param_sets ->
  length y = (omega p + k p)%nat -> is_bytes y = true -> length y' = (omega p + k p)%nat -> is_bytes y' = true ->
  hint_bit_unpack p y = Ok (Some h) -> hint_bit_unpack p y' = Ok (Some h) -> y = y'.
Proof.
  intros p y y' h Hp L B L' B' E E'. destruct (C29_canonical p y h Hp L B E) as [_ P].
  destruct (C29_canonical p y' h Hp L' B' E') as [_ P']. congruence.
Qed.
Theorem C29_total : forall p y, length y = (omega p + k p)%nat -> exists o, hint_bit_unpack p y = Ok o.
Proof. exact hint_unpack_total. Qed.
Definition ex_hint : list (list Z) :=
  [ [0;0;1] ++ repeat 0 252 ++ [1]; repeat 0 256; repeat 1 3 ++ repeat 0 253; [1] ++ repeat 0 255 ].
Example C29_roundtrip_ex : is_hint 4 80 ex_hint /\
  hint_bit_pack ml_dsa_44 ex_hint = Ok ([2; 255; 0; 1; 2; 0] ++ repeat 0 74 ++ [2; 2; 5; 6]) /\
  hint_bit_unpack ml_dsa_44 ([2; 255; 0; 1; 2; 0] ++ repeat 0 74 ++ [2; 2; 5; 6]) = Ok (Some ex_hint).
Proof.
  split; [|split; vm_compute; reflexivity].
  split; [reflexivity|]. split; [|apply Nat.leb_le; reflexivity].
  assert (B : forallb (fun r => (length r =? 256)%nat && forallb (fun x => (x =? 0) || (x =? 1)) r) ex_hint = true) by reflexivity.
  apply Forall_forall. intros r Hr. rewrite forallb_forall in B. specialize (B r Hr). apply andb_true_iff in B as [B1 B2].
  split; [apply Nat.eqb_eq; exact B1|]. rewrite forallb_forall in B2. apply Forall_forall. intros x Hx. specialize (B2 x Hx). cbv beta in B2. lia.
Qed.
(** Swapped positions, a repeated position, a nonzero unused cell, a decreasing counter. *)
Example C29_reject_ex :
  hint_bit_unpack ml_dsa_44 ([255; 2] ++ repeat 0 78 ++ [2; 2; 2; 2]) = Ok None /\
  hint_bit_unpack ml_dsa_44 ([2; 2] ++ repeat 0 78 ++ [2; 2; 2; 2]) = Ok None /\
  hint_bit_unpack ml_dsa_44 ([2; 255; 9] ++ repeat 0 77 ++ [2; 2; 2; 2]) = Ok None /\
  hint_bit_unpack ml_dsa_44 ([2; 255] ++ repeat 0 78 ++ [2; 1; 2; 2]) = Ok None.
Proof. repeat split. Qed.

(** ** C30: key and signature codecs *)
Definition std_lengths (p : params) (pk sk sg : nat) : Prop :=
  (32 + 320 * k p)%nat = pk /\ sk_len p = sk /\ sig_len p = sg.
Theorem C30_lengths : std_lengths ml_dsa_44 1312 2560 2420 /\ std_lengths ml_dsa_65 1952 4032 3309 /\
  std_lengths ml_dsa_87 2592 4896 4627.
Proof. split; [|split]; (split; [|split]; reflexivity). Qed.
Theorem C30_public_key : forall p rho t1, In p param_sets -> length rho = 32%nat ->
  length t1 = k p -> Forall (fun t => length t = 256%nat /\ Forall (fun x => 0 <= x < 2 ^ 10) t) t1 ->
  exists pk, pk_encode p rho t1 = Ok pk /\ length pk = (32 + 320 * k p)%nat /\
    (is_bytes rho = true -> is_bytes pk = true) /\ pk_decode p pk = Ok (rho, t1).
Proof.
  intros p rho t1 Hp Lr Lt Ft. apply pk_roundtrip; [apply (param_sets_good p Hp)|exact Lr|split; assumption].
Qed.
Theorem C30_public_key_canonical : forall p pk, In p param_sets -> length pk = (32 + 320 * k p)%nat -> is_bytes pk = true ->
  exists rho t1, pk_decode p pk = Ok (rho, t1) /\ pk_encode p rho t1 = Ok pk.
Proof.
  intros p pk Hp L B. destruct (pk_decode_encode p pk) as (rho & t1 & E & _ & _ & E'); [apply (param_sets_good p Hp)|exact L|exact B|].
  exists rho, t1. auto.
Qed.
Theorem C30_secret_key : forall p rho kk tr s1 s2 t0, In p param_sets ->
  length rho = 32%nat -> length kk = 32%nat -> length tr = 64%nat ->
  vec_in (- eta p) (eta p) (ell p) s1 -> vec_in (- eta p) (eta p) (k p) s2 -> vec_in (- 4095) 4096 (k p) t0 ->
  exists sk, sk_encode p rho kk tr s1 s2 t0 = Ok sk /\ length sk = sk_len p /\
    (is_bytes rho = true -> is_bytes kk = true -> is_bytes tr = true -> is_bytes sk = true) /\
    sk_decode p sk = Ok {| sk_rho := rho; sk_kk := kk; sk_tr := tr; sk_s1 := s1; sk_s2 := s2; sk_t0 := t0 |}.
Proof. intros p rho kk tr s1 s2 t0 Hp. apply sk_roundtrip. apply (param_sets_good p Hp). Qed.
Theorem C30_secret_key_canonical : forall p sk, In p param_sets -> length sk = sk_len p -> is_bytes sk = true ->
  exists s, sk_decode p sk = Ok s /\ sk_encode p (sk_rho s) (sk_kk s) (sk_tr s) (sk_s1 s) (sk_s2 s) (sk_t0 s) = Ok sk.
Proof. intros p sk Hp. apply sk_decode_encode. apply (param_sets_good p Hp). Qed.
Theorem C30_signature : forall p ct z h, In p param_sets -> length ct = Nat.div (lam p) 4 ->
  vec_in (1 - gam1 p) (gam1 p) (ell p) z -> is_hint (k p) (omega p) h ->
  exists sg, sig_encode p ct z h = Ok sg /\ length sg = sig_len p /\
    (is_bytes ct = true -> is_bytes sg = true) /\ sig_decode p sg = Ok (ct, z, Some h).
Proof.
  intros p ct z h Hp Lc [Lz Fz] Hh. apply sig_roundtrip; [apply (param_sets_good p Hp)|exact Lc| |exact Hh].
  split; [exact Lz|]. eapply Forall_impl; [|exact Fz]. intros f [L F]. split; [exact L|].
  eapply Forall_impl; [|exact F]. intros x Hx. cbv beta in *. lia.
Qed.
(** Every byte string of the right length decodes; when its hint is accepted,
    it is the encoding of what it decodes to. *)
Theorem C30_signature_canonical : forall p sg, In p param_sets -> length sg = sig_len p -> is_bytes sg = true ->
  exists ct z o, sig_decode p sg = Ok (ct, z, o) /\
    forall h, o = Some h -> is_hint (k p) (omega p) h /\ sig_encode p ct z h = Ok sg.
Proof.
  intros p sg Hp L B. destruct (sig_decode_total p sg (param_sets_good p Hp) L B) as (ct & z & o & E & _ & _ & H).
  exists ct, z, o. auto.
Qed.
Example C30_public_key_ex :
  let t1 := repeat (map Z.of_nat (seq 700 256)) 4 in
  Forall (fun t => length t = 256%nat /\ Forall (fun x => 0 <= x < 2 ^ 10) t) t1 /\ length t1 = k ml_dsa_44.
Proof.
  cbv zeta. split; [|reflexivity]. apply Forall_forall. intros t Ht. apply repeat_spec in Ht. subst t.
  split; [reflexivity|]. apply Forall_map, Forall_forall. intros i Hi. apply in_seq in Hi. lia.
Qed.
(** The components of a real key pair: the key pair of [C33_verify_ex] below meets the hypotheses
    of the secret key and signature theorems by [C33_keygen]. *)

(** ** C31: rounding *)
Theorem C31_power2round : forall r r1 r0, power2round1 13 r = (r1, r0) ->
  r mod 8380417 = r1 * 2 ^ 13 + r0 /\ centred_residue (2 ^ 13) (r mod 8380417) r0 /\ 0 <= r1 < 2 ^ 10.
Proof. exact power2round_spec. Qed.
Theorem C31_modpm : forall m a, 0 < a -> centred_residue a m (modpm m a).
Proof. exact modpm_spec. Qed.
(** [gam2] is (q-1)/88 = 95232 or (q-1)/32 = 261888. *)
Theorem C31_decompose : forall g r r1 r0, g = 95232 \/ g = 261888 -> decompose g r = (r1, r0) ->
  (exists t, r = r1 * (2 * g) + r0 + t * 8380417) /\ 0 <= r1 < 8380416 / (2 * g) /\
  (- g < r0 <= g \/ r1 = 0 /\ r0 = - g).
Proof. intros g r r1 r0 Hg E. pose proof (decompose_spec g r Hg) as D. rewrite E in D. exact D. Qed.
Theorem C31_decompose_unique : forall g r r1 r0, g = 95232 \/ g = 261888 ->
  (exists t, r = r1 * (2 * g) + r0 + t * 8380417) -> 0 <= r1 < 8380416 / (2 * g) ->
  (- g < r0 <= g \/ r1 = 0 /\ r0 = - g) -> decompose g r = (r1, r0).
Proof.
  intros g r r1 r0 Hg E R B. destruct (decomposed_unique g r _ _ r1 r0 Hg (decompose_spec g r Hg)) as [<- <-].
  - split; [exact E|]. split; [exact R|exact B].
  - destruct (decompose g r); reflexivity.
Qed.
(** Hints: on one coefficient, and on vectors of polynomials. *)
Theorem C31_hint_coefficient : forall g r z, g = 95232 \/ g = 261888 -> small 8380417 g z ->
  let bit := if fst (decompose g r) =? fst (decompose g (r + z)) then 0 else 1 in
  use_hint1 g bit r = fst (decompose g (r + z)).
Proof. intros g r z Hg Hz. cbv zeta. apply (use_make_hint g r (r + z) z Hg); [apply cg_refl|exact Hz]. Qed.
Theorem C31_hint : forall p n z r, In p param_sets -> length r = n -> length z = n ->
  Forall (fun f => length f = 256%nat) r -> Forall (fun f => length f = 256%nat) z ->
  Forall (Forall (small 8380417 (gam2 p))) z ->
  use_hint p (make_hint p z r) r = high_bits p (vadd r z).
Proof.
  intros p n z r Hp Lr Lz Fr Fz S. apply (use_make_hint_vec p n); [apply (param_sets_good p Hp)|split; assumption|split; assumption|exact S].
Qed.
(** Adding something small does not change the high bits when the low bits are small enough. *)
Theorem C31_high_bits_stable : forall g beta r s, g = 95232 \/ g = 261888 -> small 8380417 beta s ->
  Z.abs (snd (decompose g r)) < g - beta -> fst (decompose g (r + s)) = fst (decompose g r).
Proof. intros g beta r s Hg Hs H. apply (high_stable g beta r (r + s) s Hg); [apply cg_refl|exact Hs|exact H]. Qed.
Example C31_ex : power2round1 13 8380416 = (1023, 0) /\ power2round1 13 4097 = (1, -4095) /\
  decompose 95232 8380416 = (0, -1) /\ decompose 95232 8285185 = (0, -95232) /\ decompose 95232 95233 = (1, -95231).
Proof. repeat split. Qed.
Example C31_hint_ex : small 8380417 95232 (-10) /\
  fst (decompose 95232 95240) = 1 /\ fst (decompose 95232 (95240 + -10)) = 0 /\ use_hint1 95232 1 95240 = 0.
Proof. split; [exists (-10); split; [split; [exists 0; lia|lia]|lia]|repeat split]. Qed.

(** ** C32: the transform *)
Theorem C32_inverse : forall f, length f = 256%nat -> Forall (fun x => 0 <= x < 8380417) f ->
  ntt_inverse (ntt f) = f /\ ntt (ntt_inverse f) = f.
Proof.
  intros f L F. assert (P : poly q 256 f) by (split; [exact L|exact F]). split; [apply intt_ntt_eq|apply ntt_intt_eq]; exact P.
Qed.
(** The product is that of Z_q[X]/(X^256+1), for all integer coefficients. *)
Theorem C32_multiplicative : forall f g, length f = 256%nat -> length g = 256%nat ->
  ntt_inverse (mul_ntt (ntt f) (ntt g)) = ring_mul 8380417 256 f g.
Proof. exact intt_mul. Qed.
Theorem C32_additive : forall f g, length f = 256%nat -> length g = 256%nat ->
  ntt_inverse (padd (ntt f) (ntt g)) = radd f g.
Proof. exact intt_padd. Qed.
Example C32_ex : let f := map (fun i => Z.of_nat i * 31337 mod 8380417) (seq 5 256) in
  length f = 256%nat /\ Forall (fun x => 0 <= x < 8380417) f /\ ntt f <> f.
Proof.
  cbv zeta. split; [reflexivity|]. split.
  - apply Forall_map, Forall_forall. intros i _. apply Z.mod_pos_bound. lia.
  - vm_compute. discriminate.
Qed.

(** ** C33: signatures verify *)
Theorem C33_keygen : forall hs p xi pk sk, In p param_sets -> hash_lengths hs ->
  keygen_internal hs p xi = Ok (pk, sk) ->
  length pk = (32 + 320 * k p)%nat /\ length sk = sk_len p /\ is_bytes pk = true /\ is_bytes sk = true.
Proof.
  intros hs p xi pk sk Hp Hh E.
  destruct (keygen_ok hs p (param_sets_good p Hp) Hh (param_sets_dims p Hp) xi pk sk E) as
    (rho & kk & ah & s1 & s2 & t1 & t0 & _ & _ & _ & _ & _ & _ & _ & _ & H). exact H.
Qed.
Theorem C33_verify : forall hs p xi pk sk fuel m ctx rnd sg, In p param_sets -> hash_lengths hs ->
  keygen_internal hs p xi = Ok (pk, sk) -> sign hs p fuel sk m ctx rnd = Some (Ok (Some sg)) ->
  length sg = sig_len p /\ is_bytes sg = true /\ verify hs p pk m sg ctx = Ok true.
Proof.
  intros hs p xi pk sk fuel m ctx rnd sg Hp Hh Ek Es. destruct (sign_ok hs p _ _ _ _ _ _ Es) as [L E].
  rewrite verify_eq by exact L. eapply signature_verifies; [exact (param_sets_good p Hp)|exact Hh|exact (param_sets_dims p Hp)|exact Ek|exact E].
Qed.
Theorem C33_hash_verify : forall hs p xi pk sk fuel m ctx ph rnd sg, In p param_sets -> hash_lengths hs ->
  keygen_internal hs p xi = Ok (pk, sk) -> hash_ml_dsa_sign hs p fuel sk m ctx ph rnd = Some (Ok (Some sg)) ->
  length sg = sig_len p /\ is_bytes sg = true /\ hash_ml_dsa_verify hs p pk m sg ctx ph = Ok (Some true).
Proof.
  intros hs p xi pk sk fuel m ctx ph rnd sg Hp Hh Ek Es.
  destruct (hash_sign_ok hs p _ _ _ _ _ _ _ Es) as (L & oid & dig & D & E).
  rewrite (hash_verify_eq hs p pk m sg ctx ph oid dig L D).
  destruct (signature_verifies hs p (param_sets_good p Hp) Hh (param_sets_dims p Hp) _ _ _ _ _ _ _ Ek E) as (H1 & H2 & H3).
  rewrite H3. auto.
Qed.
(** A context of more than 255 bytes: signing returns None, [verify] raises
    ValueError, [hash_ml_dsa_verify] returns None. *)
Theorem C33_long_context : forall hs p fuel sk pk m sg ctx ph rnd, (255 < length ctx)%nat ->
  sign hs p fuel sk m ctx rnd = Some (Ok None) /\ verify hs p pk m sg ctx = Err EValueError /\
  hash_ml_dsa_sign hs p fuel sk m ctx ph rnd = Some (Ok None) /\ hash_ml_dsa_verify hs p pk m sg ctx ph = Ok None.
Proof.
  intros hs p fuel sk pk m sg ctx ph rnd H. apply Nat.ltb_lt in H.
  unfold sign, verify, hash_ml_dsa_sign, hash_ml_dsa_verify. rewrite H. auto.
Qed.
(** More attempts never change the outcome of a run that has ended. *)
Theorem C33_deterministic : forall hs p fuel fuel' sk m ctx rnd r, (fuel <= fuel')%nat ->
  sign hs p fuel sk m ctx rnd = Some r -> sign hs p fuel' sk m ctx rnd = Some r.
Proof.
  intros hs p fuel fuel' sk m ctx rnd r L. replace fuel' with (fuel + (fuel' - fuel))%nat by lia.
  unfold sign. destruct (_ <? _)%nat; [intro E; exact E|]. cbv zeta.
  destruct (sign_internal hs p fuel sk _ _) as [x|] eqn:E; [|discriminate].
  rewrite (sign_internal_mono hs p _ _ _ _ _ (fuel' - fuel) E). intro E'; exact E'.
Qed.
(** A key pair and a signature on a message with a context, whose hint is not empty. *)
Example C33_verify_ex : hash_lengths toy /\ exists pk sk sg ct z h,
  keygen_internal toy ml_dsa_44 ex_xi = Ok (pk, sk) /\ sign toy ml_dsa_44 1 sk [2] [5; 6] None = Some (Ok (Some sg)) /\
  sig_decode ml_dsa_44 sg = Ok (ct, z, Some h) /\ nonzeros h <> 0%nat.
Proof.
  split; [exact toy_lengths|]. destruct ex_signature as (pk & sk & sg & Ek & Es & ct & z & h & Ed & Nh).
  exists pk, sk, sg, ct, z, h. split; [exact Ek|]. split; [|split; assumption].
  unfold sign. cbv zeta. change (255 <? length [5; 6])%nat with false.
  change (integer_to_bytes 0 1 ++ integer_to_bytes (Z.of_nat (length [5; 6])) 1 ++ [5; 6] ++ [2]) with (ex_mp [2]).
  change (default_rnd None) with (repeat 0 32). rewrite Es. reflexivity.
Qed.
Example C33_long_context_ex : (255 < length (repeat 1 256))%nat.
Proof. apply Nat.ltb_lt. reflexivity. Qed.

(** ** C50: what verification decides *)
Theorem C50_decides : forall hs p pk m ctx sg, In p param_sets -> hash_lengths hs -> (length ctx <= 255)%nat ->
  length pk = (32 + 320 * k p)%nat -> is_bytes pk = true -> length sg = sig_len p -> is_bytes sg = true ->
  verify hs p pk m sg ctx = Err ERuntimeError \/
  exists b, verify hs p pk m sg ctx = Ok b /\
    (b = true <-> accepts hs p pk ([0; Z.of_nat (length ctx)] ++ ctx ++ m) sg).
Proof.
  intros hs p pk m ctx sg Hp Hh L Lp Bp Ls Bs. rewrite verify_eq by exact L.
  apply verify_decides; [exact (param_sets_good p Hp)|exact Hh|exact (param_sets_dims p Hp)|exact Lp|exact Bp|exact Ls|exact Bs].
Qed.
Example C50_decides_ex : exists pk sg, length pk = (32 + 320 * k ml_dsa_44)%nat /\ is_bytes pk = true /\
  length sg = sig_len ml_dsa_44 /\ is_bytes sg = true /\
  accepts toy ml_dsa_44 pk ([0; Z.of_nat (length [5; 6])] ++ [5; 6] ++ [2]) sg.
Proof.
  destruct C33_verify_ex as (Hh & pk & sk & sg & _ & _ & _ & Ek & Es & _).
  assert (Hp : In ml_dsa_44 param_sets) by (left; reflexivity).
  destruct (C33_keygen _ _ _ _ _ Hp Hh Ek) as (L1 & _ & B1 & _).
  destruct (C33_verify _ _ _ _ _ _ _ _ _ _ Hp Hh Ek Es) as (L2 & B2 & V).
  exists pk, sg. split; [exact L1|]. split; [exact B1|]. split; [exact L2|]. split; [exact B2|].
  destruct (C50_decides toy ml_dsa_44 pk [2] [5; 6] sg Hp Hh) as [E|(b & E & H)];
    [apply Nat.leb_le; reflexivity|exact L1|exact B1|exact L2|exact B2|congruence|].
  apply H. congruence.
Qed.
(** A truncated signature is never accepted (it raises IndexError or is rejected) ... *)
Theorem C50_truncated : forall hs p pk m ctx sg, In p param_sets -> (length ctx <= 255)%nat ->
  length pk = (32 + 320 * k p)%nat -> is_bytes pk = true -> (length sg < sig_len p)%nat ->
  verify hs p pk m sg ctx = Err EIndexError \/ verify hs p pk m sg ctx = Ok false.
Proof.
  intros hs p pk m ctx sg Hp L Lp Bp Ls. rewrite verify_eq by exact L.
  apply verify_short; [exact (param_sets_good p Hp)|exact Lp|exact Bp|exact Ls].
Qed.
Example C50_truncated_ex : sig_decode ml_dsa_44 [1; 2; 3] = Err EIndexError.
Proof. vm_compute. reflexivity. Qed.
(** ... but bytes after a signature are ignored: this layer has no length check. *)
Theorem C50_trailing_bytes : forall hs p pk m ctx sg x, (sig_len p <= length sg)%nat ->
  verify hs p pk m (sg ++ x) ctx = verify hs p pk m sg ctx.
Proof.
  intros hs p pk m ctx sg x H. unfold verify. destruct (_ <? _)%nat; [reflexivity|]. cbv zeta. apply verify_trailing. exact H.
Qed.
Theorem C50_unique_encoding_refuted : exists hs pk m ctx sg sg', hash_lengths hs /\ sg <> sg' /\
  verify hs ml_dsa_44 pk m sg ctx = Ok true /\ verify hs ml_dsa_44 pk m sg' ctx = Ok true.
Proof.
  destruct C33_verify_ex as (Hh & pk & sk & sg & _ & _ & _ & Ek & Es & _).
  assert (Hp : In ml_dsa_44 param_sets) by (left; reflexivity).
  destruct (C33_verify _ _ _ _ _ _ _ _ _ _ Hp Hh Ek Es) as (L & _ & V).
  exists toy, pk, [2], [5; 6], sg, (sg ++ [0]). split; [exact Hh|]. split.
  - intro E. apply (f_equal (@length Z)) in E. rewrite app_length in E. cbn [length] in E. lia.
  - split; [exact V|]. rewrite C50_trailing_bytes by (rewrite L; apply Nat.le_refl). exact V.
Qed.

(** ** C51: sampled values have the prescribed shape *)
Theorem C51_challenge : forall p s c, In p param_sets -> is_bytes s = true -> sample_in_ball p s = Ok c ->
  length c = 256%nat /\ Forall (fun x => x = -1 \/ x = 0 \/ x = 1) c /\
  length (filter (fun x => negb (x =? 0)) c) = tau p.
Proof.
  intros p s c Hp B E. destruct (param_sets_good p Hp) as (_ & _ & _ & _ & Ht & _).
  destruct (sample_in_ball_ok p s c ltac:(lia) B E) as (L & T & Sm). split; [exact L|]. split; [exact T|].
  rewrite (asum_nonzeros c T) in Sm. apply Nat2Z.inj in Sm. unfold nonzeros in Sm. cbn [concat] in Sm.
  rewrite app_nil_r in Sm. exact Sm.
Qed.
Theorem C51_matrix : forall s f, is_bytes s = true -> rej_ntt_poly s = Ok f ->
  length f = 256%nat /\ Forall (fun x => 0 <= x < 8380417) f.
Proof. exact rej_ntt_poly_ok. Qed.
Theorem C51_secret : forall p s f, is_bytes s = true -> rej_bounded_poly p s = Ok f ->
  length f = 256%nat /\ Forall (fun x => - eta p <= x <= eta p) f.
Proof. exact rej_bounded_poly_ok. Qed.
Theorem C51_mask : forall hs p rho kappa y, In p param_sets -> hash_lengths hs -> expand_mask hs p rho kappa = Ok y ->
  vec_in (1 - gam1 p) (gam1 p) (ell p) y.
Proof. exact expand_mask_range. Qed.
Example C51_ex : exists c, sample_in_ball ml_dsa_44 (toy_gen 400 1) = Ok c /\ length (filter (fun x => negb (x =? 0)) c) = 39%nat.
Proof. eexists. split; [vm_compute; reflexivity|reflexivity]. Qed.
Example C51_secret_ex : exists f, rej_bounded_poly ml_dsa_44 (toy_gen 400 1) = Ok f /\ nth 0 f 9 <> nth 3 f 9.
Proof. eexists. split; [vm_compute; reflexivity|vm_compute; discriminate]. Qed.
Example C51_mask_ex : exists y, expand_mask toy ml_dsa_44 [1] 0 = Ok y /\ nth 0 (nth 0 y []) 0 <> nth 1 (nth 0 y []) 0.
Proof. eexists. split; [vm_compute; reflexivity|vm_compute; discriminate]. Qed.

(** ** C52: contexts, messages and modes are never confused *)
(** Signing and verification look at the message and the context only through the formatted
    message, and that string determines the mode, the context, and the message or its digest. *)
Theorem C52_pure_format : forall hs p fuel sk pk sg m ctx rnd, (length ctx <= 255)%nat ->
  let mp := [0; Z.of_nat (length ctx)] ++ ctx ++ m in
  verify hs p pk m sg ctx = verify_internal hs p pk mp sg /\
  forall s, sign hs p fuel sk m ctx rnd = Some (Ok (Some s)) ->
    sign_internal hs p fuel sk mp (default_rnd rnd) = Some (Ok s).
Proof.
  intros hs p fuel sk pk sg m ctx rnd H. cbv zeta. split; [apply verify_eq; exact H|].
  intros s E. apply (sign_ok hs p _ _ _ _ _ _ E).
Qed.
Theorem C52_prehash_format : forall hs p pk sg m ctx ph oid dig, (length ctx <= 255)%nat ->
  ph_digest hs ph m = Some (oid, dig) ->
  hash_ml_dsa_verify hs p pk m sg ctx ph =
  bind (verify_internal hs p pk ([1; Z.of_nat (length ctx)] ++ ctx ++ oid ++ dig) sg) (fun b => Ok (Some b)).
Proof. intros. apply hash_verify_eq; assumption. Qed.
Theorem C52_injective : forall (mode mode' : Z) (ctx ctx' m m' : bytes),
  [mode; Z.of_nat (length ctx)] ++ ctx ++ m = [mode'; Z.of_nat (length ctx')] ++ ctx' ++ m' ->
  mode = mode' /\ ctx = ctx' /\ m = m'.
Proof. exact fmt_inj. Qed.
Theorem C52_prehash_injective : forall hs ph ph' m m' oid oid' dig dig',
  ph_digest hs ph m = Some (oid, dig) -> ph_digest hs ph' m' = Some (oid', dig') ->
  oid ++ dig = oid' ++ dig' -> ph = ph' /\ dig = dig'.
Proof. exact ph_inj. Qed.
(** An unknown pre-hash name is refused. *)
Theorem C52_unknown_prehash : forall hs p fuel sk pk m sg ctx rnd, (length ctx <= 255)%nat ->
  hash_ml_dsa_sign hs p fuel sk m ctx PhOther rnd = Some (Ok None) /\
  hash_ml_dsa_verify hs p pk m sg ctx PhOther = Ok (Some false).
Proof.
  intros hs p fuel sk pk m sg ctx rnd H. unfold hash_ml_dsa_sign, hash_ml_dsa_verify.
  destruct (Nat.ltb_spec 255 (length ctx)); [lia|]. auto.
Qed.
Example C52_ex : [0; 1] ++ [7] ++ [8; 9] <> [0; 2] ++ [7; 8] ++ [9].
Proof. discriminate. Qed.

Print Assumptions C28_roundtrip.
Print Assumptions C29_canonical.
Print Assumptions C30_secret_key.
Print Assumptions C31_hint.
Print Assumptions C32_inverse.
Print Assumptions C32_multiplicative.
Print Assumptions C33_verify.
Print Assumptions C33_hash_verify.
Print Assumptions C33_verify_ex.
Print Assumptions C50_decides.
Print Assumptions C50_unique_encoding_refuted.
Print Assumptions C51_challenge.
