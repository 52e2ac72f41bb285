(** The key, signature and commitment encodings of the ML-DSA model. *)
From Verif Require Export MlDsaSample.
Local Open Scope Z_scope.

Definition good_params (p : params) : Prop :=
  d p = 13%nat /\ good_gam2 (gam2 p) /\ (eta p = 2 \/ eta p = 4) /\ (omega p <= 255)%nat /\ (tau p <= 64)%nat /\
  beta p = Z.of_nat (tau p) * eta p /\ (gam1 p = 2 ^ 17 \/ gam1 p = 2 ^ 19) /\ (0 < k p)%nat /\ (0 < ell p)%nat.
Lemma param_sets_good p : In p param_sets -> good_params p.
Proof.
  intros [<-|[<-|[<-|[]]]]; unfold good_params, good_gam2; cbn [d gam2 eta omega tau beta gam1 k ell ml_dsa_44 ml_dsa_65 ml_dsa_87];
    repeat split; try lia; auto.
Qed.

(** * Vectors of packed polynomials *)
Lemma concat_length le (ls : list bytes) : Forall (fun c => length c = le) ls -> length (concat ls) = (le * length ls)%nat.
Proof.
  induction 1 as [|c ls Hc _ IH]; [simpl; lia|]. cbn [concat length]. rewrite app_length, Hc, IH. lia.
Qed.
Lemma concat_bytes (ls : list bytes) : Forall (fun c => is_bytes c = true) ls -> is_bytes (concat ls) = true.
Proof. induction 1 as [|c ls Hc _ IH]; [reflexivity|]. cbn [concat]. rewrite is_bytes_app, Hc, IH. reflexivity. Qed.

Lemma firstn_plus {A} (l : list A) : forall a b, firstn (a + b) l = firstn a l ++ firstn b (skipn a l).
Proof.
  induction l as [|x l IH]; intros [|a] b; cbn [Nat.add firstn skipn app]; auto.
  - rewrite firstn_nil. reflexivity.
  - rewrite IH. reflexivity.
Qed.

Lemma skipn_skipn {A} (l : list A) : forall a b, skipn a (skipn b l) = skipn (a + b) l.
Proof.
  intros a b. revert l. induction b as [|b IH]; intro l; [rewrite Nat.add_0_r; reflexivity|].
  rewrite Nat.add_succ_r. destruct l; cbn [skipn]; [destruct a; reflexivity|apply IH].
Qed.

Section Vec.
Variables (f : list Z -> result bytes) (g : bytes -> result (list Z)) (le : nat).

Lemma pack_all_ok v :
  Forall (fun x => exists b, f x = Ok b /\ length b = le /\ is_bytes b = true /\ g b = Ok x) v ->
  exists b, pack_all f v = Ok b /\ length b = (le * length v)%nat /\ is_bytes b = true /\
    forall pre post, unpack_at g (pre ++ b ++ post) (length pre) le (length v) = Ok v.
Proof.
  intro F.
  assert (K : exists bs, mapM f v = Ok bs /\ length bs = length v /\ Forall (fun c => length c = le) bs /\
    Forall (fun c => is_bytes c = true) bs /\ forall i, (i < length v)%nat -> g (nth i bs []) = Ok (nth i v [])).
  { induction F as [|x v (b & E1 & E2 & E3 & E4) _ (bs & B1 & B2 & B3 & B4 & B5)].
    - exists []. repeat split; auto. intros i Hi. simpl in Hi. lia.
    - exists (b :: bs). cbn [mapM]. rewrite E1. cbn [bind]. rewrite B1. cbn [length]. rewrite B2.
      repeat split; auto. intros [|i] Hi; cbn [nth]; [exact E4|]. apply B5. simpl in Hi. lia. }
  destruct K as (bs & B1 & B2 & B3 & B4 & B5). exists (concat bs). unfold pack_all. rewrite B1. cbn [bind].
  split; [reflexivity|]. split; [rewrite (concat_length le) by exact B3; rewrite B2; reflexivity|].
  split; [apply concat_bytes; exact B4|]. intros pre post. unfold unpack_at.
  rewrite (mapM_ok_map _ (fun i => nth i v [])); [rewrite map_nth_seq; reflexivity|].
  intros i Hi. apply in_seq in Hi. rewrite (slice_app_r pre) by reflexivity.
  rewrite (slice_concat le); [apply B5; apply Hi|exact B3|]. unfold bytes in B2. rewrite B2. apply Hi.
Qed.

Lemma unpack_at_ok s pt n :
  (forall b, length b = le -> is_bytes b = true -> exists x, g b = Ok x /\ f x = Ok b) ->
  (pt + le * n <= length s)%nat -> is_bytes s = true ->
  exists v, unpack_at g s pt le n = Ok v /\ length v = n /\ pack_all f v = Ok (slice pt (pt + le * n) s) /\
    forall x, In x v -> exists b, length b = le /\ is_bytes b = true /\ g b = Ok x.
Proof.
  intros Hg. revert pt. induction n as [|n IH]; intros pt L B.
  - exists []. repeat split; [|intros x []]. unfold pack_all. cbn [mapM bind concat]. unfold slice.
    replace (pt + le * 0 - pt)%nat with 0%nat by lia. reflexivity.
  - assert (L1 : length (slice pt (pt + le) s) = le) by (rewrite slice_length; lia).
    assert (B1 : is_bytes (slice pt (pt + le) s) = true).
    { apply bytes_forall. apply bytes_forall in B. unfold slice.
      rewrite <- (firstn_skipn pt s) in B. apply Forall_app in B as [_ B].
      rewrite <- (firstn_skipn (pt + le - pt) (skipn pt s)) in B. apply Forall_app in B as [B _]. exact B. }
    destruct (Hg _ L1 B1) as (x & Gx & Fx).
    destruct (IH (pt + le)%nat) as (v & E & Lv & P & D); [lia|exact B|].
    exists (x :: v). split; [|split; [|split]].
    + unfold unpack_at in *. change (seq 0 (S n)) with (0%nat :: seq 1 n). cbn [mapM].
      replace (slice (pt + le * 0) (pt + le * (0 + 1)) s) with (slice pt (pt + le) s) by (f_equal; lia).
      rewrite Gx. cbn [bind]. rewrite <- seq_shift.
      replace (mapM _ (map S (seq 0 n))) with (Ok v); [reflexivity|].
      rewrite <- E. clear. generalize (seq 0 n). induction l as [|i l IHl]; [reflexivity|].
      cbn [map mapM]. rewrite IHl. replace (pt + le * S i)%nat with (pt + le + le * i)%nat by lia.
      replace (pt + le * (S i + 1))%nat with (pt + le + le * (i + 1))%nat by lia. reflexivity.
    + cbn [length]. rewrite Lv. reflexivity.
    + unfold pack_all in *. cbn [mapM]. rewrite Fx. cbn [bind]. destruct (mapM f v) as [bs|]; [|discriminate].
      cbn [bind concat] in *. injection P as P. rewrite P. f_equal. unfold slice.
      replace (pt + le - pt)%nat with le by lia. replace (pt + le * S n - pt)%nat with (le + le * n)%nat by lia.
      replace (pt + le + le * n - (pt + le))%nat with (le * n)%nat by lia.
      rewrite firstn_plus, skipn_skipn. replace (le + pt)%nat with (pt + le)%nat by lia. reflexivity.
    + intros y [<-|Hy]; [exists (slice pt (pt + le) s); auto|apply D; exact Hy].
Qed.
End Vec.

(** * Slices of concatenations *)
Lemma slice_slice {A} (s : list A) a b c : (a <= b)%nat -> (b <= c)%nat ->
  slice a b s ++ slice b c s = slice a c s.
Proof.
  intros H1 H2. unfold slice. replace (c - a)%nat with ((b - a) + (c - b))%nat by lia.
  rewrite firstn_plus, skipn_skipn. replace (b - a + a)%nat with b by lia. reflexivity.
Qed.
Lemma slice_full {A} (s : list A) n : length s = n -> slice 0 n s = s.
Proof. apply slice_all. Qed.
Lemma slice_bytes s a b : is_bytes s = true -> is_bytes (slice a b s) = true.
Proof.
  intro B. apply bytes_forall. apply bytes_forall in B. unfold slice.
  rewrite <- (firstn_skipn a s) in B. apply Forall_app in B as [_ B].
  rewrite <- (firstn_skipn (b - a) (skipn a s)) in B. apply Forall_app in B as [B _]. exact B.
Qed.

(** * Public keys *)
Lemma t1_bits_13 p : d p = 13%nat -> t1_bits p = 10%nat.
Proof. intro H. unfold t1_bits. rewrite H, q_val. reflexivity. Qed.
Lemma bl_1023 : bit_length (2 ^ Z.of_nat 10 - 1) = 10%nat. Proof. reflexivity. Qed.

Definition t1_ok (k : nat) (t1 : list (list Z)) : Prop :=
  length t1 = k /\ Forall (fun t => length t = 256%nat /\ Forall (fun x => 0 <= x < 2 ^ 10) t) t1.

Lemma pk_roundtrip p rho t1 : d p = 13%nat -> length rho = 32%nat -> t1_ok (k p) t1 ->
  exists pk, pk_encode p rho t1 = Ok pk /\ length pk = (32 + 320 * k p)%nat /\
    (is_bytes rho = true -> is_bytes pk = true) /\ pk_decode p pk = Ok (rho, t1).
Proof.
  intros Hd Lr [Lt Ft]. unfold pk_encode, pk_decode. rewrite t1_bits_13 by exact Hd.
  destruct (pack_all_ok (fun t => simple_bit_pack t (2 ^ Z.of_nat 10 - 1)) (fun b => simple_bit_unpack b (2 ^ Z.of_nat 10 - 1)) 320 t1)
    as (b & E & Lb & Bb & U).
  - eapply Forall_impl; [|exact Ft]. intros t [L F].
    destruct (simple_pack_ok t (2 ^ Z.of_nat 10 - 1) L) as (v & V1 & V2 & V3 & V4).
    + eapply Forall_impl; [|exact F]. intros x Hx. change (2 ^ Z.of_nat 10) with 1024. change (2 ^ 10) with 1024 in Hx. cbv beta in *. lia.
    + exists v. rewrite bl_1023 in V2. auto.
  - rewrite E. cbn [bind]. exists (rho ++ b). split; [reflexivity|].
    split; [rewrite app_length; rewrite Lb, Lt, Lr; reflexivity|].
    split; [intro B; rewrite is_bytes_app, B, Bb; reflexivity|].
    specialize (U rho []). rewrite app_nil_r, Lr, Lt in U. unfold unpack_at in U.
    change (32 * 10)%nat with 320%nat. rewrite U. cbn [bind]. rewrite slice_app_l by exact Lr. reflexivity.
Qed.

Lemma pk_decode_encode p pk : d p = 13%nat -> length pk = (32 + 320 * k p)%nat -> is_bytes pk = true ->
  exists rho t1, pk_decode p pk = Ok (rho, t1) /\ length rho = 32%nat /\ t1_ok (k p) t1 /\ pk_encode p rho t1 = Ok pk.
Proof.
  intros Hd L B. unfold pk_encode, pk_decode. rewrite t1_bits_13 by exact Hd. change (32 * 10)%nat with 320%nat.
  destruct (unpack_at_ok (fun t => simple_bit_pack t (2 ^ Z.of_nat 10 - 1)) (fun b => simple_bit_unpack b (2 ^ Z.of_nat 10 - 1)) 320 pk 32 (k p))
    as (v & E & Lv & P & D).
  - intros b Lb Bb. destruct (simple_unpack_ok b (2 ^ Z.of_nat 10 - 1)) as (w & W1 & _ & _ & W2); [exact Lb|exact Bb|].
    exists w. auto.
  - lia.
  - exact B.
  - unfold unpack_at in E. rewrite E. cbn [bind]. exists (slice 0 32 pk), v. split; [reflexivity|].
    split; [rewrite slice_length; lia|]. split.
    + split; [exact Lv|]. apply Forall_forall. intros t Ht. destruct (D t Ht) as (b & Lb & Bb & G).
      destruct (simple_unpack_ok b (2 ^ Z.of_nat 10 - 1) Lb Bb) as (w & W1 & W2 & W3 & _). rewrite W1 in G. injection G as <-.
      split; [exact W2|]. exact W3.
    + rewrite P. cbn [bind]. rewrite slice_slice by lia. rewrite slice_full by exact L. reflexivity.
Qed.

(** * Signatures *)
Lemma bl_gam1 g : g = 2 ^ 17 \/ g = 2 ^ 19 -> bit_length (g - 1 + g) = (1 + bit_length (g - 1))%nat.
Proof. intros [->| ->]; reflexivity. Qed.
Definition z_bytes (p : params) : nat := (32 * (1 + bit_length (gam1 p - 1)))%nat.
Definition sig_len (p : params) : nat := (Nat.div (lam p) 4 + z_bytes p * ell p + (omega p + k p))%nat.

Definition z_ok (p : params) (z : list (list Z)) : Prop :=
  length z = ell p /\ Forall (fun f => length f = 256%nat /\ Forall (fun x => - gam1 p < x <= gam1 p) f) z.

Lemma sig_roundtrip p ct z h : good_params p -> length ct = Nat.div (lam p) 4 -> z_ok p z -> is_hint (k p) (omega p) h ->
  exists sg, sig_encode p ct z h = Ok sg /\ length sg = sig_len p /\
    (is_bytes ct = true -> is_bytes sg = true) /\ sig_decode p sg = Ok (ct, z, Some h).
Proof.
  intros (_ & _ & _ & Om & _ & _ & Hg & _) Lc [Lz Fz] Hh. unfold sig_encode, sig_decode, sig_len. fold (z_bytes p).
  destruct (pack_all_ok (fun i => bit_pack i (gam1 p - 1) (gam1 p)) (fun b => bit_unpack b (gam1 p - 1) (gam1 p)) (z_bytes p) z)
    as (b & E & Lb & Bb & U).
  { eapply Forall_impl; [|exact Fz]. intros f [L F].
    destruct (bit_pack_ok f (gam1 p - 1) (gam1 p) L) as (v & V1 & V2 & V3 & V4).
    - eapply Forall_impl; [|exact F]. intros x Hx. cbv beta in *. lia.
    - exists v. rewrite (bl_gam1 (gam1 p) Hg) in V2. auto. }
  rewrite firstn_all2 by lia. rewrite E. cbn [bind]. rewrite Lz, Nat.ltb_irrefl.
  destruct (hint_roundtrip p h Om Hh) as (y & Y1 & Y2 & Y3 & Y4). rewrite Y1. cbn [bind].
  exists (ct ++ b ++ y). split; [reflexivity|]. rewrite Lz in Lb.
  split; [rewrite !app_length; rewrite Lc, Lb, Y2; lia|].
  split; [intro B; rewrite !is_bytes_app, B, Bb, Y3; reflexivity|].
  specialize (U ct y). rewrite Lz, Lc in U. unfold unpack_at in U. rewrite U. cbn [bind].
  rewrite slice_app_l by exact Lc. rewrite app_assoc.
  replace (lam p / 4 + z_bytes p * ell p + omega p + k p)%nat with ((lam p / 4 + z_bytes p * ell p) + (omega p + k p))%nat by lia.
  rewrite <- (Nat.add_0_r (lam p / 4 + z_bytes p * ell p)) at 1.
  rewrite (slice_app_r (ct ++ b) y) by (rewrite app_length, Lc, Lb; reflexivity).
  rewrite slice_all by exact Y2. rewrite Y4. reflexivity.
Qed.

Lemma sig_decode_total p sg : good_params p -> length sg = sig_len p -> is_bytes sg = true ->
  exists ct z o, sig_decode p sg = Ok (ct, z, o) /\ length ct = Nat.div (lam p) 4 /\ z_ok p z /\
    forall h, o = Some h -> is_hint (k p) (omega p) h /\ sig_encode p ct z h = Ok sg.
Proof.
  intros (_ & _ & _ & Om & _ & _ & Hg & _) L B. unfold sig_encode, sig_decode. fold (z_bytes p). unfold sig_len in L.
  assert (BU : forall b, length b = z_bytes p -> is_bytes b = true -> exists w, bit_unpack b (gam1 p - 1) (gam1 p) = Ok w /\
     length w = 256%nat /\ Forall (fun x => - gam1 p < x <= gam1 p) w /\ bit_pack w (gam1 p - 1) (gam1 p) = Ok b).
  { intros b Lb Bb. destruct (bit_unpack_ok b (gam1 p - 1) (gam1 p)) as (w & W1 & W2 & W3 & W4); [rewrite (bl_gam1 _ Hg); exact Lb|exact Bb|].
    exists w. split; [exact W1|]. split; [exact W2|]. split; [|exact W4]. eapply Forall_impl; [|exact W3].
    intros x Hx. cbv beta in *. destruct Hg as [G|G]; rewrite G in *.
    - change (2 ^ Z.of_nat (bit_length (2 ^ 17 - 1 + 2 ^ 17))) with (2 ^ 18) in Hx. lia.
    - change (2 ^ Z.of_nat (bit_length (2 ^ 19 - 1 + 2 ^ 19))) with (2 ^ 20) in Hx. lia. }
  destruct (unpack_at_ok (fun i => bit_pack i (gam1 p - 1) (gam1 p)) (fun b => bit_unpack b (gam1 p - 1) (gam1 p)) (z_bytes p) sg (lam p / 4) (ell p))
    as (z & E & Lz & P & D).
  { intros b Lb Bb. destruct (BU b Lb Bb) as (w & W1 & _ & _ & W4). exists w. auto. }
  { lia. } { exact B. }
  unfold unpack_at in E. rewrite E. cbn [bind].
  set (n1 := (lam p / 4 + z_bytes p * ell p)%nat) in *.
  replace (n1 + omega p + k p)%nat with (n1 + (omega p + k p))%nat by lia.
  assert (Ly : length (slice n1 (n1 + (omega p + k p)) sg) = (omega p + k p)%nat) by (rewrite slice_length; lia).
  assert (By : is_bytes (slice n1 (n1 + (omega p + k p)) sg) = true) by (apply slice_bytes; exact B).
  destruct (hint_unpack_total p _ Ly) as (o & Eo). rewrite Eo. cbn [bind].
  exists (slice 0 (lam p / 4) sg), z, o. split; [reflexivity|].
  assert (Hn1 : (lam p / 4 <= n1)%nat) by (unfold n1; lia). clearbody n1.
  split; [rewrite slice_length; lia|]. split.
  - split; [exact Lz|]. apply Forall_forall. intros f Hf. destruct (D f Hf) as (b & Lb & Bb & G).
    destruct (BU b Lb Bb) as (w & W1 & W2 & W3 & _). rewrite W1 in G. injection G as <-. auto.
  - intros h ->. destruct (hint_unpack_inv p _ h Om Ly By Eo) as [H1 H2]. split; [exact H1|].
    rewrite firstn_all2 by lia. rewrite P. cbn [bind]. rewrite Lz, Nat.ltb_irrefl, H2. cbn [bind].
    rewrite (slice_slice sg (lam p / 4) n1) by lia. rewrite slice_slice by lia. rewrite slice_full by lia. reflexivity.
Qed.

(** * Secret keys *)
Definition s_bytes (p : params) : nat := (32 * bit_length (2 * eta p))%nat.
Definition sk_len (p : params) : nat := (128 + s_bytes p * ell p + s_bytes p * k p + 416 * k p)%nat.
Definition vec_in (a b : Z) (n : nat) (v : list (list Z)) : Prop :=
  length v = n /\ Forall (fun f => length f = 256%nat /\ Forall (fun x => a <= x <= b) f) v.

Lemma vec_pack a b n v : vec_in (- a) b n v ->
  exists s, pack_all (fun f => bit_pack f a b) v = Ok s /\ length s = (32 * bit_length (a + b) * n)%nat /\ is_bytes s = true /\
    forall pre post, unpack_at (fun y => bit_unpack y a b) (pre ++ s ++ post) (length pre) (32 * bit_length (a + b)) n = Ok v.
Proof.
  intros [L F].
  destruct (pack_all_ok (fun f => bit_pack f a b) (fun y => bit_unpack y a b) (32 * bit_length (a + b)) v) as (s & E & Ls & Bs & U).
  - eapply Forall_impl; [|exact F]. intros f [Lf Ff]. apply bit_pack_ok; assumption.
  - rewrite L in *. exists s. auto.
Qed.

Lemma sk_roundtrip p rho kk tr s1 s2 t0 : d p = 13%nat -> length rho = 32%nat -> length kk = 32%nat -> length tr = 64%nat ->
  vec_in (- eta p) (eta p) (ell p) s1 -> vec_in (- eta p) (eta p) (k p) s2 -> vec_in (- 4095) 4096 (k p) t0 ->
  exists sk, sk_encode p rho kk tr s1 s2 t0 = Ok sk /\ length sk = sk_len p /\
    (is_bytes rho = true -> is_bytes kk = true -> is_bytes tr = true -> is_bytes sk = true) /\
    sk_decode p sk = Ok {| sk_rho := rho; sk_kk := kk; sk_tr := tr; sk_s1 := s1; sk_s2 := s2; sk_t0 := t0 |}.
Proof.
  intros Hd Lr Lk Lt V1 V2 V3. unfold sk_encode, sk_decode, sk_len. fold (s_bytes p). rewrite Hd.
  change (2 ^ (Z.of_nat 13 - 1) - 1) with 4095. change (2 ^ (Z.of_nat 13 - 1)) with 4096.
  destruct (vec_pack _ _ _ _ V1) as (b1 & E1 & L1 & B1 & U1).
  destruct (vec_pack _ _ _ _ V2) as (b2 & E2 & L2 & B2 & U2).
  destruct (vec_pack 4095 4096 _ _ V3) as (b3 & E3 & L3 & B3 & U3).
  replace (eta p + eta p) with (2 * eta p) in * by lia. fold (s_bytes p) in *. change (32 * bit_length (4095 + 4096))%nat with 416%nat in *.
  rewrite E1, E2, E3. cbn [bind]. exists (rho ++ kk ++ tr ++ b1 ++ b2 ++ b3). split; [reflexivity|].
  split; [rewrite !app_length; rewrite Lr, Lk, Lt, L1, L2, L3; lia|].
  split; [intros P1 P2 P3; rewrite !is_bytes_app, P1, P2, P3, B1, B2, B3; reflexivity|].
  set (s := rho ++ kk ++ tr ++ b1 ++ b2 ++ b3).
  assert (S1 : s = (rho ++ kk ++ tr) ++ b1 ++ (b2 ++ b3)) by (unfold s; rewrite <- !app_assoc; reflexivity).
  assert (S2 : s = (rho ++ kk ++ tr ++ b1) ++ b2 ++ b3) by (unfold s; rewrite <- !app_assoc; reflexivity).
  assert (S3 : s = (rho ++ kk ++ tr ++ b1 ++ b2) ++ b3 ++ []) by (unfold s; rewrite app_nil_r, <- !app_assoc; reflexivity).
  specialize (U1 (rho ++ kk ++ tr) (b2 ++ b3)). rewrite <- S1 in U1. rewrite !app_length, Lr, Lk, Lt in U1. cbn [Nat.add] in U1.
  specialize (U2 (rho ++ kk ++ tr ++ b1) b3). rewrite <- S2 in U2.
  replace (length (rho ++ kk ++ tr ++ b1)) with (128 + s_bytes p * ell p)%nat in U2 by (rewrite !app_length, Lr, Lk, Lt, L1; lia).
  specialize (U3 (rho ++ kk ++ tr ++ b1 ++ b2) []). rewrite <- S3 in U3.
  replace (length (rho ++ kk ++ tr ++ b1 ++ b2)) with (128 + s_bytes p * ell p + s_bytes p * k p)%nat in U3
    by (rewrite !app_length, Lr, Lk, Lt, L1, L2; lia).
  change (32 * 13)%nat with 416%nat. rewrite U1. cbn [bind]. rewrite U2. cbn [bind]. rewrite U3. cbn [bind]. do 2 f_equal.
  - apply slice_app_l. exact Lr.
  - unfold s. change 32%nat with (32 + 0)%nat at 1. change 64%nat with (32 + 32)%nat. rewrite slice_app_r by exact Lr. apply slice_app_l. exact Lk.
  - unfold s. rewrite app_assoc. change 64%nat with (64 + 0)%nat at 1. change 128%nat with (64 + 64)%nat.
    rewrite slice_app_r by (rewrite app_length, Lr, Lk; reflexivity). apply slice_app_l. exact Lt.
Qed.

Lemma vec_unpack a b n s pt : (pt + 32 * bit_length (a + b) * n <= length s)%nat -> is_bytes s = true ->
  exists v, unpack_at (fun y => bit_unpack y a b) s pt (32 * bit_length (a + b)) n = Ok v /\
    vec_in (b - 2 ^ Z.of_nat (bit_length (a + b)) + 1) b n v /\
    pack_all (fun f => bit_pack f a b) v = Ok (slice pt (pt + 32 * bit_length (a + b) * n) s).
Proof.
  intros L B.
  destruct (unpack_at_ok (fun f => bit_pack f a b) (fun y => bit_unpack y a b) (32 * bit_length (a + b)) s pt n) as (v & E & Lv & P & D).
  - intros y Ly By. destruct (bit_unpack_ok y a b Ly By) as (w & W1 & _ & _ & W4). exists w. auto.
  - exact L.
  - exact B.
  - exists v. split; [exact E|]. split; [|exact P]. split; [exact Lv|]. apply Forall_forall. intros f Hf.
    destruct (D f Hf) as (y & Ly & By & G). destruct (bit_unpack_ok y a b Ly By) as (w & W1 & W2 & W3 & _).
    rewrite W1 in G. injection G as <-. split; [exact W2|]. eapply Forall_impl; [|exact W3]. intros x Hx. cbv beta in *. lia.
Qed.

Lemma sk_decode_encode p sk : d p = 13%nat -> length sk = sk_len p -> is_bytes sk = true ->
  exists s, sk_decode p sk = Ok s /\ sk_encode p (sk_rho s) (sk_kk s) (sk_tr s) (sk_s1 s) (sk_s2 s) (sk_t0 s) = Ok sk.
Proof.
  intros Hd L B. unfold sk_encode, sk_decode, sk_len in *. fold (s_bytes p). rewrite Hd.
  change (2 ^ (Z.of_nat 13 - 1) - 1) with 4095. change (2 ^ (Z.of_nat 13 - 1)) with 4096.
  assert (Es : (32 * bit_length (eta p + eta p))%nat = s_bytes p) by (unfold s_bytes; do 2 f_equal; lia).
  assert (Et : (32 * bit_length (4095 + 4096))%nat = 416%nat) by reflexivity.
  pose proof (fun n pt => vec_unpack (eta p) (eta p) n sk pt) as V. rewrite Es in V.
  pose proof (fun n pt => vec_unpack 4095 4096 n sk pt) as W. rewrite Et in W.
  set (a1 := (128 + s_bytes p * ell p)%nat) in *. set (a2 := (a1 + s_bytes p * k p)%nat) in *.
  destruct (V (ell p) 128%nat) as (s1 & E1 & _ & P1); [unfold a1, a2 in *; lia|exact B|].
  destruct (V (k p) a1) as (s2 & E2 & _ & P2); [unfold a1, a2 in *; lia|exact B|].
  destruct (W (k p) a2) as (t0 & E3 & _ & P3); [unfold a1, a2 in *; lia|exact B|].
  change (32 * 13)%nat with 416%nat. rewrite E1. cbn [bind]. rewrite E2. cbn [bind]. rewrite E3. cbn [bind].
  eexists. split; [reflexivity|]. cbn [sk_rho sk_kk sk_tr sk_s1 sk_s2 sk_t0]. rewrite P1, P2, P3. cbn [bind]. fold a1 a2.
  assert (H1 : (128 <= a1)%nat) by (unfold a1; lia). assert (H2 : (a1 <= a2)%nat) by (unfold a2; lia). clearbody a1 a2.
  rewrite (slice_slice sk a1) by lia. rewrite (slice_slice sk 128) by lia. rewrite (slice_slice sk 64) by lia.
  rewrite (slice_slice sk 32) by lia. rewrite slice_slice by lia. rewrite slice_full by lia. reflexivity.
Qed.
