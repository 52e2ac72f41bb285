(** Concrete hash functions and parameters used by the examples and refutations. *)
From Verif Require Import SlhSpec LatFacts SlhDigits SlhWots SlhTree SlhHt SlhBind.
From Coq Require Import Lia.
Local Open Scope Z_scope.

(** A hash that drops the first 48 bytes (for n = 16: PK.seed and the address) and cuts: F is the identity. *)
Definition cut (x : bytes) (l : nat) : bytes := firstn l (skipn 48 x ++ repeat 0 l).
Definition toy : raw := {| r_sha256 := fun x => cut x 32; r_sha512 := fun x => cut x 64; r_shake128 := cut; r_shake256 := cut |}.

Lemma cut_length x l : length (cut x l) = l.
Proof. unfold cut. rewrite firstn_length, app_length, repeat_length. lia. Qed.
Lemma toy_ok : raw_ok toy.
Proof. constructor; intros; apply cut_length. Qed.

(** A mixing hash for a small parameter set, so that whole signatures can be evaluated. *)
Definition mixh (x : bytes) (l : nat) : bytes :=
  let s := fold_left (fun t b => (t * 37 + b + 1) mod 65521) x 7 in
  map (fun i => (s / (Z.of_nat i + 1) + 59 * Z.of_nat i) mod 256) (seq 0 l).
Definition mixed : raw := {| r_sha256 := fun x => mixh x 32; r_sha512 := fun x => mixh x 64; r_shake128 := mixh; r_shake256 := mixh |}.
Definition tiny : params := {| fam := SHAKE; n := 2; h := 2; d := 2; hp := 1; a := 2; k := 2; lg_w := 2; m := 3 |}.

Lemma mixed_ok : raw_ok mixed.
Proof. constructor; intros; cbn [mixed r_sha256 r_sha512 r_shake256]; unfold mixh; rewrite map_length, seq_length; reflexivity. Qed.
Lemma mixh_bytes x l : is_bytes (mixh x l) = true.
Proof.
  unfold mixh, is_bytes. apply forallb_forall. intros y Hy. apply in_map_iff in Hy. destruct Hy as (i & <- & _).
  unfold is_byte. match goal with |- context [?z mod 256] => pose proof (Z.mod_pos_bound z 256 ltac:(lia)) end.
  rewrite (proj2 (Z.leb_le _ _)), (proj2 (Z.ltb_lt _ _)) by lia. reflexivity.
Qed.
Lemma mixed_bytes : raw_bytes mixed.
Proof. constructor; intros; apply mixh_bytes. Qed.

Definition all_c (c sg : bytes) : Prop := forall i, ((i + 1) * 16 <= length sg)%nat -> slice (i * 16) ((i + 1) * 16) sg = c.
Lemma all_c_slice c sg u v : all_c c sg -> (v * 16 <= length sg)%nat -> all_c c (slice (u * 16) (v * 16) sg).
Proof.
  intros Ha Hv i Hi. unfold slice in *. rewrite firstn_length, skipn_length in Hi.
  rewrite skipn_firstn_comm, firstn_firstn, skipn_plus. rewrite <- (Ha (u + i)%nat) by lia. unfold slice.
  replace (Nat.min ((i + 1) * 16 - i * 16) (v * 16 - u * 16 - i * 16)) with ((u + i + 1) * 16 - (u + i) * 16)%nat by lia.
  replace (u * 16 + i * 16)%nat with ((u + i) * 16)%nat by lia. reflexivity.
Qed.
Section Toy.
Let p := p128f SHAKE.
Lemma p_wf : wfb p = true. Proof. vm_compute. reflexivity. Qed.
Lemma n16 : n p = 16%nat. Proof. reflexivity. Qed.

Variables pk sk : bytes.
Hypothesis Lpk : length pk = 16%nat.

Lemma cut_app A x l : length A = 32%nat -> cut (pk ++ A ++ x) l = firstn l (x ++ repeat 0 l).
Proof.
  intro H. unfold cut. rewrite app_assoc. rewrite skipn_app_exact by (rewrite app_length; lia). reflexivity.
Qed.
Lemma toy_f A x : length A = 32%nat -> length x = 16%nat -> h_f toy p pk A x = x.
Proof. intros HA H. change (h_f toy p pk A x) with (cut (pk ++ A ++ x) 16). rewrite cut_app by exact HA. apply firstn_app_exact. exact H. Qed.
Lemma toy_h A x y : length A = 32%nat -> length x = 16%nat -> h_h toy p pk A (x ++ y) = x.
Proof.
  intros HA H. change (h_h toy p pk A (x ++ y)) with (cut (pk ++ A ++ x ++ y) 16).
  rewrite cut_app by exact HA. rewrite <- app_assoc. apply firstn_app_exact. exact H.
Qed.

Lemma toy_chain l t kp i s : forall f x, length x = 16%nat -> chainS toy p pk l t kp i f s x = x.
Proof.
  induction s as [|s IH]; intros f x H; [reflexivity|]. unfold chainS. cbn [seq fold_left]. rewrite toy_f by (try exact H; apply adr_length).
  apply IH. exact H.
Qed.
Lemma toy_sk A : length A = 32%nat -> length sk = 16%nat -> prf toy p pk sk A = sk.
Proof. intros HA H. change (prf toy p pk sk A) with (cut (pk ++ A ++ sk) 16). rewrite cut_app by exact HA. apply firstn_app_exact. exact H. Qed.


Lemma toy_climb l t y kp C auth c : length c = 16%nat ->
  forall js, (forall j, In j js -> slice (j * 16) ((j + 1) * 16) auth = c) -> climbS toy p pk l t y kp C auth js c = c.
Proof.
  intros Hc. induction js as [|j js IH]; intro H; [reflexivity|]. cbn [climbS]. rewrite n16, H by (left; reflexivity).
  rewrite !toy_h by (try exact Hc; apply adr_length). destruct (Z.even _); apply IH; intros; apply H; right; assumption.
Qed.

(** Recomputation from a signature whose pieces are all [c] gives [c]. *)
Lemma toy_xmss_from l t idx sg v c : length c = 16%nat -> length sg = ((hp p + len p) * 16)%nat -> all_c c sg ->
  xmss_from toy p pk l t idx sg v = c.
Proof.
  intros Hc Ls Ha. change (hp p) with 3%nat in Ls. change (len p) with 35%nat in Ls.
  assert (W : wots_from toy p pk l t idx (firstn (len p * n p) sg) v = c).
  { unfold wots_from. change (len p) with (S 34). rewrite n16. cbn [seq flat_map].
    assert (S0 : slice (0 * 16) ((0 + 1) * 16) (firstn (35 * 16) sg) = c).
    { rewrite <- (Ha 0%nat) by lia. unfold slice. change (0 * 16)%nat with 0%nat. change ((0 + 1) * 16 - 0)%nat with 16%nat.
      rewrite !skipn_O, firstn_firstn. reflexivity. }
    rewrite S0. unfold h_t. rewrite toy_chain by exact Hc. apply toy_h; [apply adr_length|exact Hc]. }
  unfold xmss_from. rewrite W. apply toy_climb; [exact Hc|].
  intros j Hj. apply in_seq in Hj. change (hp p) with 3%nat in Hj. change (len p * n p)%nat with (35 * 16)%nat.
  rewrite <- (Ha (35 + j)%nat) by lia. unfold slice. rewrite skipn_plus.
  replace ((j + 1) * 16 - j * 16)%nat with ((35 + j + 1) * 16 - (35 + j) * 16)%nat by lia.
  replace (35 * 16 + j * 16)%nat with ((35 + j) * 16)%nat by lia. reflexivity.
Qed.

End Toy.

Lemma toy_tail_from pk c sig : length pk = 16%nat -> length c = 16%nat -> all_c c sig ->
  forall r j T node, ((j + r) * 608 <= length sig)%nat -> (r = 0%nat -> node = c) ->
  ht_tail_from toy (p128f SHAKE) pk r j T sig node = c.
Proof.
  intros Hpk Hc Ha. induction r as [|r IH]; intros j T node HL Hn; [apply Hn; reflexivity|].
  cbn [ht_tail_from]. apply IH; [lia|]. intros _. unfold layer_from.
  change (hp (p128f SHAKE) + len (p128f SHAKE))%nat with 38%nat. change (n (p128f SHAKE)) with 16%nat.
  apply toy_xmss_from; [exact Hpk|exact Hc| |].
  - change (hp (p128f SHAKE) + len (p128f SHAKE))%nat with 38%nat. unfold slice. rewrite firstn_length, skipn_length. lia.
  - apply all_c_slice; [exact Ha|lia].
Qed.

Lemma toy_ht_from pk msg sig T L c : length pk = 16%nat -> length c = 16%nat -> (length sig = 22 * 608)%nat -> all_c c sig ->
  ht_from toy (p128f SHAKE) pk msg sig T L = c.
Proof.
  intros Hpk Hc Ls Ha. unfold ht_from.
  change (d (p128f SHAKE) - 1)%nat with 21%nat. apply toy_tail_from; [exact Hpk|exact Hc|exact Ha|lia|lia].
Qed.

(** The honest trees: every node is SK.seed. *)
Lemma toy_wpk pk sk l t kp : length pk = 16%nat -> length sk = 16%nat -> wots_pkS toy (p128f SHAKE) sk pk l t kp = sk.
Proof.
  intros Hpk Hsk. unfold wots_pkS. change (len (p128f SHAKE)) with (S 34). cbn [seq flat_map].
  unfold wots_skS. rewrite toy_sk by (try exact Hpk; try exact Hsk; apply adr_length).
  rewrite toy_chain by assumption. unfold h_t. apply toy_h; [exact Hpk|apply adr_length|exact Hsk].
Qed.
Lemma toy_xnode pk sk l t z : length pk = 16%nat -> length sk = 16%nat -> forall i, xnode toy (p128f SHAKE) sk pk l t z i = sk.
Proof.
  intros Hpk Hsk. induction z as [|z IH]; intro i; [apply toy_wpk; assumption|]. cbn [xnode]. rewrite !IH.
  apply toy_h; [exact Hpk|apply adr_length|exact Hsk].
Qed.

Lemma all_c_flat c {A} (f : A -> bytes) l : length c = 16%nat -> (forall x, f x = c) -> all_c c (flat_map f l).
Proof.
  intros Hc Hf. induction l as [|x l IH]; intros i Hi; [cbn in Hi; lia|].
  cbn [flat_map] in *. rewrite Hf in *. rewrite app_length, Hc in Hi. destruct i as [|i].
  - unfold slice. cbn [Nat.mul skipn]. apply firstn_app_exact. rewrite Hc. reflexivity.
  - unfold slice. replace (S i * 16)%nat with (16 + i * 16)%nat by lia. rewrite <- skipn_plus.
    rewrite skipn_app_exact by exact Hc. replace ((S i + 1) * 16 - (16 + i * 16))%nat with ((i + 1) * 16 - i * 16)%nat by lia.
    apply IH. lia.
Qed.
Lemma all_c_app c u v k : length c = 16%nat -> (length u = k * 16)%nat -> all_c c u -> all_c c v -> all_c c (u ++ v).
Proof.
  intros Hc Lu Hu Hv i Hi. rewrite app_length in Hi. unfold slice. destruct (le_lt_dec k i) as [H|H].
  - replace (i * 16)%nat with (k * 16 + (i - k) * 16)%nat by lia. rewrite <- skipn_plus, skipn_app_exact by exact Lu.
    rewrite <- (Hv (i - k)%nat) by lia. unfold slice. f_equal. lia.
  - rewrite <- (Hu i) by lia. unfold slice. rewrite skipn_app, firstn_app.
    rewrite skipn_length. replace ((i + 1) * 16 - i * 16 - (length u - i * 16))%nat with 0%nat by lia.
    cbn [firstn]. rewrite app_nil_r. reflexivity.
Qed.

Lemma toy_xsig pk sk l t idx v : length pk = 16%nat -> length sk = 16%nat ->
  all_c sk (xmss_sigS toy (p128f SHAKE) sk pk l t idx v) /\ length (xmss_sigS toy (p128f SHAKE) sk pk l t idx v) = 608%nat.
Proof.
  intros Hpk Hsk. split; [|apply (xmss_sigS_length toy _ toy_ok p_wf)].
  unfold xmss_sigS. apply (all_c_app _ _ _ 35); [exact Hsk|apply (wots_sigS_length toy _ toy_ok p_wf)| |].
  - apply all_c_flat; [exact Hsk|]. intro i. unfold wots_skS. rewrite toy_sk by (try assumption; apply adr_length). apply toy_chain; assumption.
  - apply all_c_flat; [exact Hsk|]. intro j. apply toy_xnode; assumption.
Qed.
Lemma toy_tail pk sk : length pk = 16%nat -> length sk = 16%nat -> forall r j T root,
  all_c sk (ht_tailS toy (p128f SHAKE) sk pk r j T root).
Proof.
  intros Hpk Hsk. induction r as [|r IH]; intros j T root; [intros i Hi; cbn in Hi; lia|].
  cbn [ht_tailS]. destruct (toy_xsig pk sk (Z.of_nat j) (T / 2 ^ Z.of_nat (hp (p128f SHAKE))) (T mod 2 ^ Z.of_nat (hp (p128f SHAKE))) (dig (p128f SHAKE) root) Hpk Hsk) as [A B].
  apply (all_c_app _ _ _ 38); [exact Hsk|exact B|exact A|apply IH].
Qed.
Lemma toy_ht pk sk msg T L : length pk = 16%nat -> length sk = 16%nat -> all_c sk (ht_sigS toy (p128f SHAKE) sk pk msg T L).
Proof.
  intros Hpk Hsk. unfold ht_sigS. destruct (toy_xsig pk sk 0 T L (dig (p128f SHAKE) msg) Hpk Hsk) as [A B].
  apply (all_c_app _ _ _ 38); [exact Hsk|exact B|exact A|]. apply toy_tail; assumption.
Qed.

(** The pre-hash signer run with the toy hash: its output is rejected. *)
Lemma prehash_rejected msg rnd : exists pk sk s,
  slh_keygen_internal toy (p128f SHAKE) (repeat 0 16) (repeat 1 16) (repeat 2 16) = Ok (pk, sk) /\
  hash_slh_sign toy (p128f SHAKE) msg [] (Lower Shake256) sk rnd = Ok (Some s) /\
  hash_slh_verify toy (p128f SHAKE) pk msg s [] (Upper Shake256) = Ok false.
Proof.
  pose proof toy_ok as HO. pose proof p_wf as HW.
  pose proof (keygen_ok toy (p128f SHAKE) HW (repeat 0 16) (repeat 1 16) (repeat 2 16)) as K.
  assert (ER : top_root toy (p128f SHAKE) (repeat 0 16) (repeat 2 16) = repeat 0 16) by (apply toy_xnode; reflexivity).
  rewrite ER in K. set (sk := repeat 0 16 ++ repeat 1 16 ++ repeat 2 16 ++ repeat 0 16) in *.
  pose proof (cut_length msg 64) as LC.
  assert (EM : exists D, length D = 64%nat /\ pre_msg toy [] Shake256 msg = [1; 0; 6; 9; 96; 134; 72; 1; 101; 3; 4; 2; 12] ++ D)
    by (exists (cut msg 64); split; [exact LC|reflexivity]).
  destruct EM as (D & LD & EM). set (mp := pre_msg toy [] Shake256 msg) in *.
  assert (Lmp : length mp = 77%nat) by (rewrite EM, app_length, LD; reflexivity).
  pose proof (sign_internal_ok toy (p128f SHAKE) HO HW sk mp rnd) as S. cbv zeta in S.
  destruct (md_of toy (p128f SHAKE) _ _ _ sk) as [[v t] l].
  change (n (p128f SHAKE)) with 16%nat in S. change (2 * 16)%nat with 32%nat in S. change (3 * 16)%nat with 48%nat in S.
  set (sks := slice 0 16 mp) in *. set (pks := slice 32 48 mp) in *.
  assert (Lsks : length sks = 16%nat) by (unfold sks, slice; rewrite firstn_length, skipn_length; lia).
  assert (Lpks : length pks = 16%nat) by (unfold pks, slice; rewrite firstn_length, skipn_length; lia).
  set (r := prf_msg toy (p128f SHAKE) _ _ sk) in *.
  assert (Lr : length r = 16%nat) by (apply (prf_msg_length toy (p128f SHAKE) HO HW)).
  match type of S with _ = Ok ?e => set (s := e) in * end.
  assert (Ls : length s = sig_sz (p128f SHAKE)) by (eapply sign_length; [exact HO|exact HW|exact S]).
  exists (repeat 2 16 ++ repeat 0 16), sk, s. split; [exact K|]. split.
  - unfold hash_slh_sign. cbn [length Nat.ltb Nat.leb]. fold mp. rewrite S. reflexivity.
  - unfold hash_slh_verify. cbn [length Nat.ltb Nat.leb]. fold mp.
    pose proof (verify_internal_ok toy (p128f SHAKE) HO HW mp s (repeat 2 16 ++ repeat 0 16) Ls eq_refl) as V. cbv zeta in V.
    destruct (md_of toy (p128f SHAKE) _ _ _ mp) as [[v' t'] l']. rewrite V. f_equal.
    change (n (p128f SHAKE)) with 16%nat.
    change (slice 0 16 (repeat 2 16 ++ repeat 0 16)) with (repeat 2 16).
    change (skipn 16 (repeat 2 16 ++ repeat 0 16)) with (repeat 0 16).
    change (1 + k (p128f SHAKE) * (1 + a (p128f SHAKE)))%nat with 232%nat.
    assert (EH : skipn (232 * 16) s = ht_sigS toy (p128f SHAKE) sks pks (fors_pkS toy (p128f SHAKE) sks pks t l) t l).
    { unfold s. rewrite app_assoc. apply skipn_app_exact. rewrite app_length, Lr.
      rewrite (fors_sigS_length toy (p128f SHAKE) HO HW). reflexivity. }
    rewrite EH. rewrite (toy_ht_from _ _ _ _ _ sks); [|reflexivity|exact Lsks| |].
    + unfold sks. rewrite EM. unfold slice. rewrite skipn_O. cbn [app firstn Nat.sub repeat bytes_eqb]. reflexivity.
    + rewrite (ht_sigS_length toy (p128f SHAKE) HO HW). reflexivity.
    + apply toy_ht; assumption.
Qed.
