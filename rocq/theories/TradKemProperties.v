(** C76: traditional key encapsulation mechanisms. *)
From Coq Require Import String Znumtheory.
From Verif Require Import Prelude CompSigModel TradKemModel TradKemSpec TradKemProofs.
Open Scope Z_scope.

(** * A library that meets the assumptions *)
Definition pub_len (c : curve) : nat :=
  match c with P256 | BP256 => 65 | P384 | BP384 => 97 | P521 => 133 | BP512 => 129 | X25519 => 32 | X448 => 56 end.
Definition fit (n : nat) (d : bytes) : bytes := firstn n (d ++ repeat 0 n).
Definition mix (a b : bytes) : bytes := map (fun x => (fst x + snd x) mod 256) (combine a b).
Definition toy : lib := {|
  t_pub := fun c d => fit (pub_len c) d;
  t_exchange := fun c d q => Ok (mix (fit (pub_len c) d) q);
  t_point := fun c b => if (length b =? pub_len c)%nat then Some b
                        else if (length b =? S (pub_len c))%nat then Some (tl b) else None;
  t_hash := fun _ m => fit 32 m;
  t_extract := fun _ salt ikm => salt ++ ikm;
  t_expand := fun _ prk info _ => prk ++ info;
  t_rsa_pub := fun k => k; t_rsa_bits := fun _ => 2048%N; t_rsa_der := fun k => k;
  t_oaep_enc := fun _ _ m => Ok m; t_oaep_dec := fun _ c => Ok c |}.

Lemma fit_length n d : length (fit n d) = n.
Proof. unfold fit. rewrite firstn_length, app_length, repeat_length. lia. Qed.
Lemma mix_sym a b : mix a b = mix b a.
Proof.
  unfold mix. revert b. induction a as [|x a IH]; intros [|y b]; try reflexivity.
  cbn [combine map fst snd]. rewrite Z.add_comm, IH. reflexivity.
Qed.
Lemma toy_good : good_lib toy.
Proof.
  constructor.
  - intros. cbn. rewrite mix_sym. reflexivity.
  - intros. cbn [t_point t_pub toy]. rewrite fit_length, Nat.eqb_refl. reflexivity.
  - intros. apply fit_length.
  - intros. apply fit_length.
  - intros. cbn in *. congruence.
Qed.
Lemma toy_hash m : length (t_hash toy Sha256 m) = 32%nat.
Proof. apply fit_length. Qed.

(** * C76: what one side encapsulates, the other decapsulates *)
(** For every private key and every randomness (or private key of the caller), encapsulation to its public key either
    fails, or gives a secret that decapsulating the ciphertext returns. *)
Theorem C76_agreement : forall L k priv r ss ct, good_lib L ->
  trad_encaps L (trad_public L k) priv r = Ok (ss, ct) -> trad_decaps L k ct = Ok ss.
Proof. intros. eapply trad_agree; eauto. Qed.

Example ex_r : rnd := {| r_eph := [1; 2; 3]; r_ss := repeat 9 32; r_seed := [] |}.
Example C76_agreement_ex :
  exists ss ct, trad_encaps toy (trad_public toy (SDh true X25519 [7; 7])) None ex_r = Ok (ss, ct) /\ length ct = 32%nat /\
    trad_decaps toy (SDh true X25519 [7; 7]) ct = Ok ss.
Proof. do 2 eexists. split; [reflexivity|]. split; reflexivity. Qed.

(** * C76: DHKEM is that of RFC 9180 *)
(** Encapsulation succeeds exactly for an ephemeral key on the same curve for which the exchange succeeds; the ciphertext is
    the public ephemeral key and the secret that of RFC 9180. *)
Theorem C76_dhkem_encaps : forall L ce de c q kem ss ct, rfc9180_kem c = Some kem ->
  (dhkem_encaps L (ce, de) c q = Ok (ss, ct) <->
   ce = c /\ exists dh, t_exchange L c de q = Ok dh /\ ct = t_pub L c de /\ ss = rfc9180_secret L kem dh ct q).
Proof. intros L ce de c q kem ss ct K. rewrite <- (used_std c kem K). apply dhkem_encaps_iff. Qed.
Theorem C76_dhkem_decaps : forall L c d ct kem ss, rfc9180_kem c = Some kem ->
  (dhkem_decaps L c d ct = Ok ss <->
   exists q dh, encoded L c ct q /\ t_exchange L c d q = Ok dh /\ ss = rfc9180_secret L kem dh ct (t_pub L c d)).
Proof. intros L c d ct kem ss K. rewrite <- (used_std c kem K). apply dhkem_decaps_iff. Qed.

Example C76_dhkem_ex : rfc9180_kem P384 = Some (17, Sha384, 48%nat) /\
  dhkem_encaps toy (P384, [5]) P384 (fit 97 [6]) =
    Ok (rfc9180_secret toy (17, Sha384, 48%nat) (mix (fit 97 [5]) (fit 97 [6])) (fit 97 [5]) (fit 97 [6]), fit 97 [5]).
Proof. split; reflexivity. Qed.

(** The brainpool curves have no identifier in RFC 9180 and get those of the NIST curves: two keys on different curves can
    have the same identifier in the derivation. *)
Theorem C76_dhkem_suite_refuted :
  ~ (forall L, good_lib L -> forall c c' de q q' ss ct, dhkem_encaps L (c, de) c q = Ok (ss, ct) ->
       dhkem_encaps L (c', de) c' q' = Ok (ss, ct) -> c = c').
Proof.
  intro H. specialize (H toy toy_good P256 BP256 [5] (fit 65 [6]) (fit 65 [6])).
  assert (P256 = BP256) as C; [|discriminate C]. eapply H; reflexivity.
Qed.
(** Over the curves of RFC 9180 it is different: the identifier determines the curve. *)
Theorem C76_dhkem_suite : forall c c' id h n h' n', rfc9180_kem c = Some (id, h, n) -> rfc9180_kem c' = Some (id, h', n') -> c = c'.
Proof. intros c c' id h n h' n' H H'. destruct c; try discriminate; destruct c'; try discriminate; try reflexivity; cbn in H, H'; congruence. Qed.

(** ECDH-KEM gives the same secret for every encoding of the point, DHKEM does not: it hashes the bytes received. *)
Theorem C76_ecdh_encoding : forall L c d ct ct' q, encoded L c ct q -> encoded L c ct' q ->
  ecdh_decaps L c d ct = ecdh_decaps L c d ct'.
Proof.
  intros L c d ct ct' q H H'. unfold ecdh_decaps. rewrite <- read_pub_iff in H, H'. rewrite H, H'. reflexivity.
Qed.
Theorem C76_dhkem_encoding_refuted :
  ~ (forall L, good_lib L -> forall c d ct ct' q, encoded L c ct q -> encoded L c ct' q -> dhkem_decaps L c d ct = dhkem_decaps L c d ct').
Proof.
  intro H. specialize (H toy toy_good P256 [1] (fit 65 [6]) (2 :: fit 65 [6]) (fit 65 [6]) eq_refl eq_refl).
  vm_compute in H. discriminate H.
Qed.

(** * C76: ECDH-KEM is the plain exchange *)
Theorem C76_ecdh_encaps : forall L ce de c q ss ct,
  ecdh_encaps L (ce, de) c q = Ok (ss, ct) <-> ce = c /\ t_exchange L c de q = Ok ss /\ ct = t_pub L c de.
Proof. exact ecdh_encaps_iff. Qed.
Theorem C76_ecdh_decaps : forall L c d ct ss,
  ecdh_decaps L c d ct = Ok ss <-> exists q, encoded L c ct q /\ t_exchange L c d q = Ok ss.
Proof. exact ecdh_decaps_iff. Qed.
Example C76_ecdh_ex : ecdh_decaps toy X448 [1] (repeat 3 56) = Ok (4 :: repeat 3 55) /\ ecdh_decaps toy X448 [1] (repeat 3 55) = Err EValueError.
Proof. split; reflexivity. Qed.

(** The ciphertext of a Diffie-Hellman key is the public key of the private key given by the caller, or of the fresh one when
    none is given; the other random values do not matter.  With RFC 9180 the secret is derived, without it is the exchange
    itself. *)
Theorem C76_ephemeral : forall L rfc c q priv r ss ct, trad_encaps L (PDh rfc c q) priv r = Ok (ss, ct) ->
  exists d dh, (priv = Some (c, d) \/ priv = None /\ d = r_eph r) /\ ct = t_pub L c d /\ t_exchange L c d q = Ok dh /\
    (rfc = false -> ss = dh) /\ (forall kem, rfc = true -> rfc9180_kem c = Some kem -> ss = rfc9180_secret L kem dh ct q).
Proof.
  intros L rfc c q priv r ss ct H. unfold trad_encaps in H.
  set (eph := match priv with Some p => p | None => (c, r_eph r) end) in H. destruct eph as [ce d] eqn:Ee. unfold eph in Ee.
  destruct rfc.
  - destruct (rfc9180_kem c) as [kem|] eqn:K.
    + apply (C76_dhkem_encaps L ce d c q kem ss ct K) in H. destruct H as [-> (dh & H1 & H2 & H3)]. exists d, dh.
      split; [destruct priv as [p|]; [left; congruence|right; split; congruence]|]. split; [exact H2|]. split; [exact H1|].
      split; [discriminate|]. intros kem' _ E. injection E as <-. exact H3.
    + apply dhkem_encaps_iff in H. destruct H as [-> (dh & H1 & H2 & H3)]. exists d, dh.
      split; [destruct priv as [p|]; [left; congruence|right; split; congruence]|]. split; [exact H2|]. split; [exact H1|].
      split; [discriminate|]. intros kem' _ E. discriminate E.
  - apply ecdh_encaps_iff in H. destruct H as (-> & H1 & H2). exists d, ss.
    split; [destruct priv as [p|]; [left; congruence|right; split; congruence]|]. split; [exact H2|]. split; [exact H1|].
    split; [reflexivity|]. discriminate.
Qed.
Example C76_ephemeral_ex : exists ss, trad_encaps toy (PDh false X25519 (fit 32 [6])) (Some (X25519, [7])) ex_r = Ok (ss, fit 32 [7]).
Proof. eexists. reflexivity. Qed.

(** * C76: RSA-KEM *)
(** For every RSA key pair and every random value below the modulus both sides get the same secret. *)
Theorem C76_rsakem_agreement : forall L len e d n rand ss ct, rsa_pair e d n -> 0 <= rand < n ->
  rsakem_encaps L len e n rand = Ok (ss, ct) -> rsakem_decaps L len d n ct = Ok ss.
Proof. exact rsakem_agree. Qed.
(** Encapsulation succeeds for such values and any secret length KDF3 allows; the ciphertext is the RSA function of the
    random value, as long as the modulus. *)
Theorem C76_rsakem_encaps : forall L len e n rand l, (forall m, length (t_hash L Sha256 m) = 32%nat) ->
  0 < n -> modulus_bytes n l -> 0 <= rand < n -> (forall k, len = Some k -> 0 <= k <= 32 * (2 ^ 32 - 1)) ->
  exists ss ct z, rsakem_encaps L len e n rand = Ok (ss, ct) /\
    big_endian l (rand ^ e mod n) ct /\ big_endian l rand z /\
    match len with None => ss = z | Some k => compute_kdf3 L z k = Ok ss end.
Proof.
  intros L len e n rand l HL P B R K. pose proof (byte_len_spec n P) as B'.
  rewrite (modulus_bytes_unique n l (byte_len n) P B B'). clear B l. destruct B' as [_ U].
  assert (exists ss, kdf_step L len (be (byte_len n) rand) = Ok ss) as [ss E].
  { destruct len as [k|]; [|eexists; reflexivity]. destruct (kdf3_ok L HL (be (byte_len n) rand) k (K k eq_refl)) as (m & out & E & _).
    exists out. exact E. }
  exists ss, (be (byte_len n) (pow_mod rand e n)), (be (byte_len n) rand).
  split; [apply rsakem_encaps_eq; [exact P|]; repeat split; [lia|lia|exact E]|].
  split; [apply be_big_endian; unfold pow_mod; pose proof (Z.mod_pos_bound (rand ^ e) n P); lia|].
  split; [apply be_big_endian; lia|]. unfold kdf_step in E. destruct len; [exact E|congruence].
Qed.
(** Decapsulation fails exactly for a ciphertext of another length than the modulus or a value not below it. *)
Theorem C76_rsakem_decaps : forall L d n l ct, 0 < n -> modulus_bytes n l -> is_bytes ct = true ->
  (forall z, rsakem_decaps L None d n ct = Ok z <->
     length ct = l /\ value ct < n /\ big_endian l (value ct ^ d mod n) z) /\
  (rsakem_decaps L None d n ct = Err EValueError <-> length ct <> l \/ n <= value ct).
Proof.
  intros L d n l ct P M B. pose proof (byte_len_spec n P) as M'. rewrite (modulus_bytes_unique n l (byte_len n) P M M'). clear M l.
  rewrite rsakem_decaps_eq by assumption. destruct M' as [_ U].
  destruct (length ct =? byte_len n)%nat eqn:C1; [apply Nat.eqb_eq in C1|apply Nat.eqb_neq in C1]; cbn [andb].
  - destruct (value ct <? n) eqn:C2; [apply Z.ltb_lt in C2|apply Z.ltb_ge in C2].
    + assert (X : big_endian (byte_len n) (value ct ^ d mod n) (be (byte_len n) (pow_mod (value ct) d n))).
      { unfold pow_mod. pose proof (Z.mod_pos_bound (value ct ^ d) n P). apply be_big_endian. lia. }
      split.
      * intro z. cbn [kdf_step]. split; [intro H; injection H as <-; auto|].
        intros (_ & _ & Y). f_equal. eapply big_endian_unique; eassumption.
      * split; [discriminate|intros [H|H]; [contradiction|lia]].
    + split; [intro z; split; [discriminate|intros (_ & H & _); lia]|]. split; auto.
  - split; [intro z; split; [discriminate|intros (H & _); contradiction]|]. split; auto.
Qed.
(** Without the KDF, different ciphertexts give different secrets. *)
Theorem C76_rsakem_binding : forall L d e n ct ct' z, rsa_pair e d n -> is_bytes ct = true -> is_bytes ct' = true ->
  rsakem_decaps L None d n ct = Ok z -> rsakem_decaps L None d n ct' = Ok z -> ct = ct'.
Proof. exact rsakem_binding. Qed.

Lemma prime_3 : prime 3. Proof. exact prime_3. Qed.
Lemma prime_11 : prime 11.
Proof.
  apply prime_intro; [lia|]. intros n Hn.
  assert (C : n = 1 \/ n = 2 \/ n = 3 \/ n = 4 \/ n = 5 \/ n = 6 \/ n = 7 \/ n = 8 \/ n = 9 \/ n = 10) by lia.
  unfold rel_prime. repeat (destruct C as [-> | C]); try subst n; apply Zis_gcd_sym;
    match goal with |- Zis_gcd 11 ?x 1 => exact (Zgcd_is_gcd 11 x) end.
Qed.
Lemma ex_pair : rsa_pair 3 7 33.
Proof. exists 3, 11. split; [exact prime_3|]. split; [exact prime_11|]. repeat split; lia || reflexivity. Qed.
Example C76_rsakem_ex : rsa_pair 3 7 33 /\ modulus_bytes 33 1 /\ rsakem_encaps toy None 3 33 31 = Ok ([31], [25]) /\
  rsakem_decaps toy None 7 33 [25] = Ok [31] /\ rsakem_decaps toy None 7 33 [33] = Err EValueError /\
  (exists ss, rsakem_encaps toy (Some 40) 3 33 31 = Ok (ss, [25]) /\ length ss = 40%nat /\ rsakem_decaps toy (Some 40) 7 33 [25] = Ok ss).
Proof.
  split; [exact ex_pair|]. split; [split; vm_compute; congruence|]. repeat (split; [reflexivity|]). eexists. repeat split.
Qed.
(** A random value given by the caller is not reduced: above the modulus the two sides disagree. *)
Theorem C76_rsakem_rand_refuted :
  ~ (forall L len e d n rand ss ct, rsa_pair e d n -> 0 < rand ->
       rsakem_encaps L len e n rand = Ok (ss, ct) -> rsakem_decaps L len d n ct = Ok ss).
Proof.
  intro H. specialize (H toy None 3 7 33 34 [34] [1] ex_pair ltac:(lia) eq_refl). discriminate H.
Qed.

(** * C76: KDF3 *)
(** The output has the length asked for and is the beginning of the blocks Hash(I2OSP(1, 4) || Z), Hash(I2OSP(2, 4) || Z), ...;
    no more blocks are computed than needed. *)
Theorem C76_kdf3 : forall L z l, (forall m, length (t_hash L Sha256 m) = 32%nat) -> 0 <= l <= 32 * (2 ^ 32 - 1) ->
  exists n out, compute_kdf3 L z l = Ok out /\ Z.of_nat (length out) = l /\
    32 * (Z.of_nat n - 1) < l <= 32 * Z.of_nat n /\ out = firstn (Z.to_nat l) (kdf3_blocks L z n).
Proof. intros L z l HL. exact (kdf3_ok L HL z l). Qed.
Example C76_kdf3_ex : compute_kdf3 toy [8] 33 = Ok ([0; 0; 0; 1; 8] ++ repeat 0 27 ++ [0]).
Proof. reflexivity. Qed.

Print Assumptions C76_agreement.
Print Assumptions C76_ephemeral.
Print Assumptions C76_dhkem_encaps.
Print Assumptions C76_dhkem_decaps.
Print Assumptions C76_dhkem_suite_refuted.
Print Assumptions C76_dhkem_suite.
Print Assumptions C76_ecdh_encoding.
Print Assumptions C76_dhkem_encoding_refuted.
Print Assumptions C76_ecdh_encaps.
Print Assumptions C76_ecdh_decaps.
Print Assumptions C76_rsakem_agreement.
Print Assumptions C76_rsakem_encaps.
Print Assumptions C76_rsakem_decaps.
Print Assumptions C76_rsakem_binding.
Print Assumptions C76_rsakem_rand_refuted.
Print Assumptions C76_kdf3.
