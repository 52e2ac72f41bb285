(** The hash functions of FIPS 205 section 11, and what determines their inputs. *)
From Verif Require Import SlhSpec LatFacts SlhTop.
From Coq Require Import Lia.
Local Open Scope Z_scope.

(** MGF1 of RFC 8017 appendix B.2.1, byte by byte: byte [i] of the mask is byte
    [i mod hlen] of the hash of the seed followed by the 4-byte counter [i / hlen]. *)
Definition is_mgf1 (H : bytes -> bytes) (hlen : nat) (seed : bytes) (l : nat) (mask : bytes) : Prop :=
  length mask = l /\
  forall i, (i < l)%nat -> nth i mask 0 = nth (i mod hlen) (H (seed ++ be 4 (Z.of_nat (i / hlen)))) 0.
(** HMAC of RFC 2104 with block length [b]: [K0] is the key, hashed when it is longer
    than a block, filled up with zeros. *)
Definition is_hmac (H : bytes -> bytes) (b : nat) (key text mac : bytes) : Prop :=
  exists K0 Ki Ko, length K0 = b /\ length Ki = b /\ length Ko = b /\
    (forall i, (i < b)%nat -> nth i K0 0 = nth i (if (b <? length key)%nat then H key else key) 0) /\
    (forall i, (i < b)%nat -> nth i Ki 0 = Z.lxor (nth i K0 0) 54 /\ nth i Ko 0 = Z.lxor (nth i K0 0) 92) /\
    mac = H (Ko ++ H (Ki ++ text)).
(** The compressed address of section 11.2. *)
Definition adr_c (l t y kp b c : Z) : bytes := be 1 l ++ be 8 t ++ be 1 y ++ be 4 kp ++ be 4 b ++ be 4 c.

Lemma nth_flat_map_const {A} (f : A -> bytes) L d (l : list A) : (0 < L)%nat -> (forall x, In x l -> length (f x) = L) ->
  forall i, (i < L * length l)%nat -> nth i (flat_map f l) 0 = nth (i mod L) (f (nth (i / L) l d)) 0.
Proof.
  intros HL. induction l as [|x l IH]; intros HF i Hi; [cbn [length] in Hi; lia|].
  cbn [flat_map]. assert (Lx : length (f x) = L) by (apply HF; left; reflexivity).
  destruct (Nat.lt_ge_cases i L) as [C|C].
  - rewrite app_nth1 by lia. rewrite Nat.mod_small, Nat.div_small by lia. reflexivity.
  - rewrite app_nth2 by lia. rewrite Lx.
    replace (i mod L)%nat with ((i - L) mod L)%nat
      by (replace i with (i - L + 1 * L)%nat at 2 by lia; symmetry; apply Nat.mod_add; lia).
    replace (i / L)%nat with (S ((i - L) / L))
      by (replace i with (i - L + 1 * L)%nat at 2 by lia; rewrite Nat.div_add by lia; lia).
    cbn [nth]. apply IH; [intros y Hy; apply HF; right; exact Hy|]. cbn [length] in Hi. lia.
Qed.
Lemma length_flat_map_const {A} (f : A -> bytes) L (l : list A) : (forall x, In x l -> length (f x) = L) ->
  length (flat_map f l) = (L * length l)%nat.
Proof.
  induction l as [|x l IH]; intro HF; [cbn; lia|]. cbn [flat_map length]. rewrite app_length, IH, HF; [lia|left; reflexivity|].
  intros y Hy. apply HF. right. exact Hy.
Qed.
Lemma nth_firstn_lt (l : bytes) : forall i n, (i < n)%nat -> nth i (firstn n l) 0 = nth i l 0.
Proof.
  induction l as [|x l IH]; intros i n Hi; [rewrite firstn_nil; reflexivity|].
  destruct n as [|n]; [lia|]. destruct i as [|i]; [reflexivity|]. cbn [firstn nth]. apply IH. lia.
Qed.

Lemma mgf_mgf1 H hlen seed l : (0 < hlen)%nat -> (forall x, length (H x) = hlen) -> is_mgf1 H hlen seed l (mgf H hlen seed l).
Proof.
  intros Hl HH. unfold is_mgf1, mgf. set (c := Nat.div (l + hlen - 1) hlen).
  assert (C : (l <= hlen * c)%nat).
  { unfold c. pose proof (Nat.div_mod (l + hlen - 1) hlen ltac:(lia)) as D.
    pose proof (Nat.mod_upper_bound (l + hlen - 1) hlen ltac:(lia)). lia. }
  assert (F : forall x, In x (seq 0 c) -> length (H (seed ++ be 4 (Z.of_nat x))) = hlen) by (intros; apply HH).
  split.
  - rewrite firstn_length, (length_flat_map_const _ hlen _ F), seq_length. lia.
  - intros i Hi. rewrite nth_firstn_lt by exact Hi.
    rewrite (nth_flat_map_const _ hlen 0%nat (seq 0 c) Hl F) by (rewrite seq_length; lia).
    rewrite seq_nth; [reflexivity|]. apply Nat.div_lt_upper_bound; lia.
Qed.
Lemma hmac_is_hmac H b key text : (forall x, (length (H x) <= b)%nat) -> is_hmac H b key text (hmac H b key text).
Proof.
  intro HH. unfold is_hmac, hmac. set (K := if (b <? length key)%nat then H key else key).
  assert (LK : (length K <= b)%nat).
  { unfold K. destruct (Nat.ltb_spec b (length key)); [apply HH|assumption]. }
  set (pad := K ++ repeat 0 (b - length K)).
  assert (LP : length pad = b) by (unfold pad; rewrite app_length, repeat_length; lia).
  exists pad, (map (fun x => Z.lxor x 54) pad), (map (fun x => Z.lxor x 92) pad).
  split; [exact LP|]. split; [rewrite map_length; exact LP|]. split; [rewrite map_length; exact LP|]. split; [|split].
  - intros i Hi. unfold pad. destruct (Nat.lt_ge_cases i (length K)) as [C|C].
    + apply app_nth1. exact C.
    + rewrite app_nth2 by exact C. rewrite (nth_overflow K) by exact C. apply nth_repeat.
  - intros i Hi. split.
    + rewrite (nth_indep _ _ (Z.lxor 0 54)) by (rewrite map_length, LP; exact Hi). exact (map_nth (fun x => Z.lxor x 54) pad 0 i).
    + rewrite (nth_indep _ _ (Z.lxor 0 92)) by (rewrite map_length, LP; exact Hi). exact (map_nth (fun x => Z.lxor x 92) pad 0 i).
  - reflexivity.
Qed.

Lemma tweak_inj (z : nat) (pk pk' A A' m m' : bytes) : length pk = length pk' -> small_address A -> small_address A' ->
  pk ++ repeat 0 z ++ adrsc A ++ m = pk' ++ repeat 0 z ++ adrsc A' ++ m' -> pk = pk' /\ A = A' /\ m = m'.
Proof.
  intros L SA SA' E. apply app_inj in E; [|exact L]. destruct E as [E1 E]. apply app_inv_head in E.
  assert (LA : forall B, small_address B -> length (adrsc B) = 22%nat).
  { intros B (LB & _). unfold adrsc, slice. rewrite !app_length, !firstn_length, !skipn_length, LB. reflexivity. }
  apply app_inj in E; [|rewrite !LA by assumption; reflexivity]. destruct E as [E2 E3].
  split; [exact E1|]. split; [apply adrsc_small; assumption|exact E3].
Qed.
Lemma tweak_full_inj (pk pk' A A' m m' : bytes) : length pk = length pk' -> length A = length A' ->
  pk ++ A ++ m = pk' ++ A' ++ m' -> pk = pk' /\ A = A' /\ m = m'.
Proof.
  intros L LA E. apply app_inj in E; [|exact L]. destruct E as [E1 E]. apply app_inj in E; [|exact LA]. tauto.
Qed.
