(** Lemmas about UTF8Pairs. *)
From Coq Require Import String Ascii Lia.
From Verif Require Import Prelude PreludeFacts PyStr CompLoadModel HdrModel ProtTab ProtModel ProtSpec ProtMac ProtSig PopModel PopSpec PopProofs PopIssue PairModel PairSpec.
Open Scope string_scope.
Open Scope Z_scope.
Open Scope list_scope.
Local Notation length := List.length.

(** ** UTF-8 *)

Lemma some_inj : forall (A : Type) (x y : A), Some x = Some y -> y = x.
Proof. congruence. Qed.
Lemma ok_inj : forall (A : Type) (x y : A), Ok x = Ok y -> y = x.
Proof. congruence. Qed.

Lemma char_some : forall c, scalar c -> exists b, utf8_char c = Some b.
Proof.
  intros c H. unfold utf8_char, scalar in *. destruct (c <? 0) eqn:E0; [lia|]. destruct (c <? 128); [eauto|]. destruct (c <? 2048); [eauto|].
  destruct (c <? 65536); [|destruct (c <? 1114112) eqn:E1; [eauto|lia]]. destruct ((55296 <=? c) && (c <=? 57343)) eqn:E1; [lia|eauto].
Qed.
Lemma char_scalar : forall c b, utf8_char c = Some b -> scalar c.
Proof.
  intros c b H. unfold utf8_char, scalar in *. destruct (c <? 0) eqn:E0; [discriminate|]. destruct (c <? 128) eqn:E1; [lia|]. destruct (c <? 2048) eqn:E2; [lia|].
  destruct (c <? 65536) eqn:E3; [destruct ((55296 <=? c) && (c <=? 57343)) eqn:E4; [discriminate|lia]|destruct (c <? 1114112) eqn:E5; [lia|discriminate]].
Qed.
Lemma div_bound : forall c k n, 0 < k -> 0 <= c < k * n -> 0 <= c / k < n.
Proof. intros c k n K H. split; [apply Z.div_pos; lia|apply Z.div_lt_upper_bound; lia]. Qed.
Lemma char_decode : forall c b r, utf8_char c = Some b -> utf8_decode (b ++ r) = option_map (cons c) (utf8_decode r).
Proof.
  intros c b r H. unfold utf8_char in H. destruct (c <? 0) eqn:E0; [discriminate|]. destruct (c <? 128) eqn:E1.
  { apply some_inj in H; subst b. cbn [app utf8_decode]. now replace ((0 <=? c) && (c <? 128)) with true by lia. }
  pose proof (Z.div_mod c 64 ltac:(lia)) as D1. pose proof (Z.mod_pos_bound c 64 ltac:(lia)) as M1.
  destruct (c <? 2048) eqn:E2.
  { apply some_inj in H; subst b. cbn [app utf8_decode]. set (q := c / 64) in *. set (m := c mod 64) in *.
    replace ((0 <=? 192 + q) && (192 + q <? 128)) with false by lia. replace ((194 <=? 192 + q) && (192 + q <=? 223)) with true by lia.
    unfold cont. replace ((128 <=? 128 + m) && (128 + m <=? 191)) with true by lia. now replace ((192 + q - 192) * 64 + (128 + m - 128)) with c by lia. }
  pose proof (Z.div_mod (c / 64) 64 ltac:(lia)) as D2. pose proof (Z.mod_pos_bound (c / 64) 64 ltac:(lia)) as M2.
  assert (Q2 : c / 4096 = c / 64 / 64) by (rewrite Z.div_div by lia; reflexivity).
  destruct (c <? 65536) eqn:E3.
  { destruct ((55296 <=? c) && (c <=? 57343)) eqn:ES; [discriminate|]. apply some_inj in H; subst b. rewrite Q2. cbn [app utf8_decode].
    set (p := c / 64 / 64) in *. set (q := c / 64 mod 64) in *. set (m := c mod 64) in *.
    replace ((0 <=? 224 + p) && (224 + p <? 128)) with false by lia. replace ((194 <=? 224 + p) && (224 + p <=? 223)) with false by lia.
    replace ((224 <=? 224 + p) && (224 + p <=? 239)) with true by lia. unfold cont.
    replace ((128 <=? 128 + q) && (128 + q <=? 191)) with true by lia. replace ((128 <=? 128 + m) && (128 + m <=? 191)) with true by lia.
    replace ((224 + p - 224) * 4096 + (128 + q - 128) * 64 + (128 + m - 128)) with c by lia. cbv zeta. replace (2048 <=? c) with true by lia. now rewrite ES. }
  pose proof (Z.div_mod (c / 64 / 64) 64 ltac:(lia)) as D3. pose proof (Z.mod_pos_bound (c / 64 / 64) 64 ltac:(lia)) as M3.
  assert (Q3 : c / 262144 = c / 64 / 64 / 64) by (rewrite !Z.div_div by lia; reflexivity).
  destruct (c <? 1114112) eqn:E4; [|discriminate]. apply some_inj in H; subst b. rewrite Q3, Q2. cbn [app utf8_decode].
  set (o := c / 64 / 64 / 64) in *. set (p := c / 64 / 64 mod 64) in *. set (q := c / 64 mod 64) in *. set (m := c mod 64) in *.
  replace ((0 <=? 240 + o) && (240 + o <? 128)) with false by lia. replace ((194 <=? 240 + o) && (240 + o <=? 223)) with false by lia.
  replace ((224 <=? 240 + o) && (240 + o <=? 239)) with false by lia. replace ((240 <=? 240 + o) && (240 + o <=? 244)) with true by lia. unfold cont.
  replace ((128 <=? 128 + p) && (128 + p <=? 191)) with true by lia.
  replace ((128 <=? 128 + q) && (128 + q <=? 191)) with true by lia. replace ((128 <=? 128 + m) && (128 + m <=? 191)) with true by lia.
  replace ((240 + o - 240) * 262144 + (128 + p - 128) * 4096 + (128 + q - 128) * 64 + (128 + m - 128)) with c by lia. cbv zeta.
  replace (65536 <=? c) with true by lia. now rewrite E4.
Qed.
Lemma utf8_round : forall s b, utf8_encode s = Some b -> utf8_decode b = Some s.
Proof.
  induction s as [|c s IH]; intros b H; cbn [utf8_encode] in H; [inversion H; reflexivity|].
  destruct (utf8_char c) as [a|] eqn:A; [|discriminate]. destruct (utf8_encode s) as [b'|]; [|discriminate]. apply some_inj in H; subst b.
  rewrite (char_decode _ _ _ A), (IH _ eq_refl). reflexivity.
Qed.
Lemma encode_scalar : forall s, (exists b, utf8_encode s = Some b) <-> Forall scalar s.
Proof.
  induction s as [|c s IH]; cbn [utf8_encode]; [split; [constructor|eauto]|]. split.
  - intros (b & H). destruct (utf8_char c) as [a|] eqn:A; [|discriminate]. destruct (utf8_encode s) as [b'|] eqn:B; [|discriminate].
    constructor; [eapply char_scalar, A|]. apply IH. eauto.
  - intro H. inversion H as [|? ? C F]. destruct (char_some _ C) as (a & ->). destruct (proj2 IH F) as (b' & ->). eauto.
Qed.
(** The other direction: only encodings are decoded. *)
Lemma decode_inv : forall n b s, (length b <= n)%nat -> utf8_decode b = Some s -> utf8_encode s = Some b.
Proof.
  induction n as [|n IH]; intros b s L H; destruct b as [|b0 r]; cbn [utf8_decode] in H; try (inversion H; reflexivity); cbn [List.length] in L; [lia|].
  destruct ((0 <=? b0) && (b0 <? 128)) eqn:E1.
  { destruct (utf8_decode r) as [t|] eqn:D; [|discriminate]. apply some_inj in H; subst s. cbn [utf8_encode]. rewrite (IH r t ltac:(lia) D).
    unfold utf8_char. replace (b0 <? 0) with false by lia. replace (b0 <? 128) with true by lia. reflexivity. }
  destruct ((194 <=? b0) && (b0 <=? 223)) eqn:E2.
  { destruct r as [|b1 r]; [discriminate|]. destruct (cont b1) eqn:C1; [|discriminate]. destruct (utf8_decode r) as [t|] eqn:D; [|discriminate].
    apply some_inj in H; subst s. cbn [utf8_encode List.length] in *. rewrite (IH r t ltac:(lia) D). unfold cont in *. set (c := (b0 - 192) * 64 + (b1 - 128)).
    assert (Q : c / 64 = b0 - 192) by (unfold c; rewrite Z.div_add_l by lia; rewrite Z.div_small by lia; lia).
    assert (M : c mod 64 = b1 - 128) by (unfold c; rewrite Z.add_comm, Z.mod_add by lia; apply Z.mod_small; lia).
    unfold utf8_char. rewrite Q, M. replace (c <? 0) with false by lia. replace (c <? 128) with false by lia. replace (c <? 2048) with true by lia.
    cbn [app]. replace (192 + (b0 - 192)) with b0 by lia. now replace (128 + (b1 - 128)) with b1 by lia. }
  destruct ((224 <=? b0) && (b0 <=? 239)) eqn:E3.
  { destruct r as [|b1 [|b2 r]]; try discriminate. set (c := (b0 - 224) * 4096 + (b1 - 128) * 64 + (b2 - 128)) in *. cbv zeta in H.
    destruct (cont b1 && cont b2 && (2048 <=? c) && negb ((55296 <=? c) && (c <=? 57343))) eqn:C; [|discriminate].
    destruct (utf8_decode r) as [t|] eqn:D; [|discriminate]. apply some_inj in H; subst s. cbn [utf8_encode List.length] in *. rewrite (IH r t ltac:(lia) D).
    unfold cont in *. apply andb_true_iff in C as (C & C4). apply andb_true_iff in C as (C & C3). apply andb_true_iff in C as (C1 & C2). apply negb_true_iff in C4.
    assert (Q : c / 64 = (b0 - 224) * 64 + (b1 - 128)).
    { unfold c. replace ((b0 - 224) * 4096 + (b1 - 128) * 64 + (b2 - 128)) with (((b0 - 224) * 64 + (b1 - 128)) * 64 + (b2 - 128)) by lia.
      rewrite Z.div_add_l by lia. rewrite (Z.div_small (b2 - 128)) by lia. lia. }
    assert (M : c mod 64 = b2 - 128).
    { unfold c. replace ((b0 - 224) * 4096 + (b1 - 128) * 64 + (b2 - 128)) with ((b2 - 128) + ((b0 - 224) * 64 + (b1 - 128)) * 64) by lia.
      rewrite Z.mod_add by lia. apply Z.mod_small; lia. }
    assert (Q2 : c / 4096 = b0 - 224).
    { replace 4096 with (64 * 64) by lia. rewrite <- Z.div_div by lia. rewrite Q. rewrite Z.div_add_l by lia. rewrite Z.div_small by lia. lia. }
    assert (M2 : c / 64 mod 64 = b1 - 128) by (rewrite Q, Z.add_comm, Z.mod_add by lia; apply Z.mod_small; lia).
    unfold utf8_char. rewrite Q2, M2, M, C4. replace (c <? 0) with false by lia. replace (c <? 128) with false by lia. replace (c <? 2048) with false by lia.
    replace (c <? 65536) with true by (unfold c; lia). cbn [app]. replace (224 + (b0 - 224)) with b0 by lia. replace (128 + (b1 - 128)) with b1 by lia. now replace (128 + (b2 - 128)) with b2 by lia. }
  destruct ((240 <=? b0) && (b0 <=? 244)) eqn:E4; [|discriminate].
  destruct r as [|b1 [|b2 [|b3 r]]]; try discriminate. set (c := (b0 - 240) * 262144 + (b1 - 128) * 4096 + (b2 - 128) * 64 + (b3 - 128)) in *. cbv zeta in H.
  destruct (cont b1 && cont b2 && cont b3 && (65536 <=? c) && (c <? 1114112)) eqn:C; [|discriminate].
  destruct (utf8_decode r) as [t|] eqn:D; [|discriminate]. apply some_inj in H; subst s. cbn [utf8_encode List.length] in *. rewrite (IH r t ltac:(lia) D).
  unfold cont in *. apply andb_true_iff in C as (C & C5). apply andb_true_iff in C as (C & C4). apply andb_true_iff in C as (C & C3). apply andb_true_iff in C as (C1 & C2).
  assert (Q : c / 64 = (b0 - 240) * 4096 + (b1 - 128) * 64 + (b2 - 128)).
  { unfold c. replace ((b0 - 240) * 262144 + (b1 - 128) * 4096 + (b2 - 128) * 64 + (b3 - 128)) with (((b0 - 240) * 4096 + (b1 - 128) * 64 + (b2 - 128)) * 64 + (b3 - 128)) by lia.
    rewrite Z.div_add_l by lia. rewrite (Z.div_small (b3 - 128)) by lia. lia. }
  assert (M : c mod 64 = b3 - 128).
  { unfold c. replace ((b0 - 240) * 262144 + (b1 - 128) * 4096 + (b2 - 128) * 64 + (b3 - 128)) with ((b3 - 128) + ((b0 - 240) * 4096 + (b1 - 128) * 64 + (b2 - 128)) * 64) by lia.
    rewrite Z.mod_add by lia. apply Z.mod_small; lia. }
  assert (Q2 : c / 4096 = (b0 - 240) * 64 + (b1 - 128)).
  { replace 4096 with (64 * 64) by lia. rewrite <- Z.div_div by lia. rewrite Q.
    replace ((b0 - 240) * 4096 + (b1 - 128) * 64 + (b2 - 128)) with (((b0 - 240) * 64 + (b1 - 128)) * 64 + (b2 - 128)) by lia.
    rewrite Z.div_add_l by lia. rewrite (Z.div_small (b2 - 128)) by lia. lia. }
  assert (M2 : c / 64 mod 64 = b2 - 128).
  { rewrite Q. replace ((b0 - 240) * 4096 + (b1 - 128) * 64 + (b2 - 128)) with ((b2 - 128) + ((b0 - 240) * 64 + (b1 - 128)) * 64) by lia.
    rewrite Z.mod_add by lia. apply Z.mod_small; lia. }
  assert (Q3 : c / 262144 = b0 - 240).
  { replace 262144 with (4096 * 64) by lia. rewrite <- Z.div_div by lia. rewrite Q2. rewrite Z.div_add_l by lia. rewrite Z.div_small by lia. lia. }
  assert (M3 : c / 4096 mod 64 = b1 - 128) by (rewrite Q2, Z.add_comm, Z.mod_add by lia; apply Z.mod_small; lia).
  unfold utf8_char. rewrite Q3, M3, M2, M. replace (c <? 0) with false by lia. replace (c <? 128) with false by lia. replace (c <? 2048) with false by lia.
  replace (c <? 65536) with false by lia. rewrite C5. cbn [app]. replace (240 + (b0 - 240)) with b0 by lia. replace (128 + (b1 - 128)) with b1 by lia. replace (128 + (b2 - 128)) with b2 by lia.
  now replace (128 + (b3 - 128)) with b3 by lia.
Qed.

(** ** Quoting *)

Lemma hex_round : forall n, 0 <= n < 16 -> hex_value (hex_digit n) = Some n.
Proof.
  intros n H. unfold hex_digit, hex_value. destruct (n <? 10) eqn:E.
  - replace ((48 <=? 48 + n) && (48 + n <=? 57)) with true by lia. f_equal. lia.
  - replace ((48 <=? 55 + n) && (55 + n <=? 57)) with false by lia. replace ((65 <=? 55 + n) && (55 + n <=? 70)) with true by lia. f_equal. lia.
Qed.
Lemma hex_ascii : forall n, 0 <= n < 16 -> 0 <= hex_digit n < 128.
Proof. intros n H. unfold hex_digit. destruct (n <? 10) eqn:E; lia. Qed.
Definition is_byte (b : Z) : Prop := 0 <= b < 256.
Lemma char_bytes : forall c b, utf8_char c = Some b -> Forall is_byte b.
Proof.
  intros c b H. unfold utf8_char in H. destruct (c <? 0) eqn:E0; [discriminate|]. destruct (c <? 128) eqn:E1; [apply some_inj in H; subst b; repeat constructor; lia|].
  pose proof (Z.mod_pos_bound c 64 ltac:(lia)) as M1. pose proof (Z.mod_pos_bound (c / 64) 64 ltac:(lia)) as M2. pose proof (Z.mod_pos_bound (c / 4096) 64 ltac:(lia)) as M3.
  destruct (c <? 2048) eqn:E2.
  { apply some_inj in H; subst b. pose proof (div_bound c 64 32 ltac:(lia) ltac:(lia)). repeat constructor; lia. }
  destruct (c <? 65536) eqn:E3.
  { destruct ((55296 <=? c) && (c <=? 57343)); [discriminate|]. apply some_inj in H; subst b. pose proof (div_bound c 4096 16 ltac:(lia) ltac:(lia)). repeat constructor; lia. }
  destruct (c <? 1114112) eqn:E4; [|discriminate]. apply some_inj in H; subst b. pose proof (div_bound c 262144 5 ltac:(lia) ltac:(lia)). repeat constructor; lia.
Qed.
Lemma encode_bytes : forall s b, utf8_encode s = Some b -> Forall is_byte b.
Proof.
  induction s as [|c s IH]; intros b H; cbn [utf8_encode] in H; [inversion H; constructor|].
  destruct (utf8_char c) as [a|] eqn:A; [|discriminate]. destruct (utf8_encode s) as [b'|]; [|discriminate]. apply some_inj in H; subst b.
  apply Forall_app. split; [eapply char_bytes, A|now apply IH].
Qed.
Lemma unquote_byte : forall b r, is_byte b -> unquote_bytes (quote_byte b ++ r) = b :: unquote_bytes r.
Proof.
  intros b r B. unfold is_byte in B. unfold quote_byte. destruct (safe b) eqn:S1.
  - cbn [app unquote_bytes]. assert (b =? percent = false) as ->; [|reflexivity]. apply Z.eqb_neq. intros ->. discriminate S1.
  - cbn [app unquote_bytes]. rewrite Z.eqb_refl. pose proof (div_bound b 16 16 ltac:(lia) ltac:(lia)). pose proof (Z.mod_pos_bound b 16 ltac:(lia)).
    rewrite !hex_round by lia. f_equal. pose proof (Z.div_mod b 16 ltac:(lia)). lia.
Qed.
Lemma unquote_all : forall b, Forall is_byte b -> unquote_bytes (flat_map quote_byte b) = b.
Proof. induction b as [|x b IH]; intro F; [reflexivity|]. inversion F. cbn [flat_map]. rewrite unquote_byte by assumption. now rewrite IH. Qed.
Lemma quote_ascii : forall b, Forall is_byte b -> Forall (fun c => 0 <= c < 128) (flat_map quote_byte b).
Proof.
  induction b as [|x b IH]; intro F; [constructor|]. inversion F as [|? ? B F']. cbn [flat_map]. apply Forall_app. split; [|now apply IH].
  unfold is_byte in B. unfold quote_byte. destruct (safe x) eqn:S1; [constructor; [unfold safe in S1; lia|constructor]|].
  pose proof (div_bound x 16 16 ltac:(lia) ltac:(lia)). pose proof (Z.mod_pos_bound x 16 ltac:(lia)).
  constructor; [unfold percent; lia|]. constructor; [now apply hex_ascii|]. constructor; [now apply hex_ascii|constructor].
Qed.
Lemma unquote_run : forall s run, Forall (fun c => 0 <= c < 128) s -> unquote_from run s = flush (run ++ s).
Proof.
  induction s as [|c s IH]; intros run F; cbn [unquote_from]; [now rewrite app_nil_r|]. inversion F as [|? ? C F']. replace (c <? 128) with true by lia.
  rewrite IH by exact F'. now rewrite <- app_assoc.
Qed.
Lemma no_percent : forall b, existsb (Z.eqb percent) (flat_map quote_byte b) = false -> flat_map quote_byte b = b /\ Forall (fun c => safe c = true) b.
Proof.
  induction b as [|x b IH]; intro H; [split; [reflexivity|constructor]|]. cbn [flat_map] in *. rewrite existsb_app in H. apply orb_false_iff in H as (H1 & H2).
  destruct (IH H2) as (-> & F). unfold quote_byte in *. destruct (safe x) eqn:S1; [split; [reflexivity|now constructor]|discriminate].
Qed.
Lemma decode_safe : forall b, Forall (fun c => safe c = true) b -> utf8_decode b = Some b.
Proof.
  induction b as [|x b IH]; intro F; [reflexivity|]. inversion F as [|? ? C F']. cbn [utf8_decode].
  replace ((0 <=? x) && (x <? 128)) with true by (unfold safe in C; lia). now rewrite IH.
Qed.
Lemma quote_round : forall s q, quote s = Ok q -> unquote q = Ok s.
Proof.
  intros s q H. unfold quote in H. destruct (utf8_encode s) as [b|] eqn:E; [|discriminate]. apply ok_inj in H; subst q. pose proof (encode_bytes _ _ E) as B.
  unfold unquote. destruct (existsb _ _) eqn:P.
  - rewrite unquote_run by (now apply quote_ascii). cbn [app]. unfold flush. rewrite unquote_all by exact B. now rewrite (utf8_round _ _ E).
  - apply no_percent in P as (-> & F). pose proof (decode_safe _ F) as D. rewrite (utf8_round _ _ E) in D. congruence.
Qed.
Lemma quote_total : forall s, (exists q, quote s = Ok q) <-> Forall scalar s.
Proof.
  intro s. rewrite <- encode_scalar. unfold quote. destruct (utf8_encode s) as [b|]; split; intros (x & H); try discriminate; eauto.
Qed.

(** ** Pairs *)

Lemma escape_escaped : forall a b x, escape a b = Some x <-> escaped [percent; a; b] x.
Proof.
  intros a b x. unfold escape. split.
  - destruct ((a =? 51) && ((b =? 102) || (b =? 70))) eqn:E1.
    + intro H. inversion H. apply andb_true_iff in E1 as (E1 & E2). apply Z.eqb_eq in E1. subst a. apply ES_question.
      apply orb_true_iff in E2 as [E2|E2]; apply Z.eqb_eq in E2; auto.
    + destruct ((a =? 50) && (b =? 53)) eqn:E2; [|discriminate]. intro H. inversion H. apply andb_true_iff in E2 as (E2 & E3).
      apply Z.eqb_eq in E2. apply Z.eqb_eq in E3. subst. apply ES_percent.
  - intro H. inversion H as [f F E1|]; subst; [|reflexivity]. destruct F as [-> | ->]; reflexivity.
Qed.
Lemma name_sound : forall n s name r, (length s <= n)%nat -> parse_name s = Ok (name, r) -> exists sn, s = sn ++ 63 :: r /\ written_name sn name.
Proof.
  induction n as [|n IH]; intros s name r L H; destruct s as [|c s]; try discriminate; cbn [parse_name List.length] in *; [lia|].
  destruct (c =? question) eqn:Q. { apply Z.eqb_eq in Q. inversion H; subst. exists []. split; [reflexivity|constructor]. }
  destruct (c =? percent) eqn:P.
  - apply Z.eqb_eq in P. subst c. destruct s as [|a [|b s]]; try discriminate. destruct (escape a b) as [x|] eqn:E; [|discriminate].
    apply bind_inv in H as ((n', t) & H1 & H). inversion H; subst. destruct (IH s n' r ltac:(cbn in L; lia) H1) as (sn & -> & W).
    exists ([percent; a; b] ++ sn). split; [reflexivity|]. apply WN_escape; [now apply escape_escaped|exact W].
  - apply bind_inv in H as ((n', t) & H1 & H). inversion H; subst. destruct (IH s n' r ltac:(lia) H1) as (sn & -> & W).
    exists (c :: sn). split; [reflexivity|]. apply WN_plain; [now apply Z.eqb_neq|now apply Z.eqb_neq|exact W].
Qed.
Lemma name_complete : forall sn name r, written_name sn name -> parse_name (sn ++ 63 :: r) = Ok (name, r).
Proof.
  intros sn name r W. induction W as [|c s n Q P W IH|e x s n E W IH].
  - reflexivity.
  - cbn [app parse_name]. rewrite (proj2 (Z.eqb_neq c question) Q), (proj2 (Z.eqb_neq c percent) P), IH. reflexivity.
  - inversion E as [f F|]; subst; cbn [app parse_name]; rewrite ?Z.eqb_refl; change (37 =? question) with false; cbn [escape].
    + rewrite (proj2 (escape_escaped 51 f 63)) by (now constructor). change (37 =? percent) with true. cbn iota. now rewrite IH.
    + change (37 =? percent) with true. change (escape 50 53) with (Some percent). cbn iota. now rewrite IH.
Qed.
Lemma value_sound : forall n s v r, (length s <= n)%nat -> parse_value s = Ok (v, r) -> exists sv, s = sv ++ 37 :: r /\ written_value sv v.
Proof.
  induction n as [|n IH]; intros s v r L H; destruct s as [|c s]; try discriminate; cbn [parse_value List.length] in *; [lia|].
  destruct (c =? percent) eqn:P.
  - apply Z.eqb_eq in P. subst c. destruct s as [|a [|b s]]; try (inversion H; subst; exists []; split; [reflexivity|constructor]).
    destruct (escape a b) as [x|] eqn:E; [|inversion H; subst; exists []; split; [reflexivity|constructor]].
    apply bind_inv in H as ((n', t) & H1 & H). inversion H; subst. destruct (IH s n' r ltac:(cbn in L; lia) H1) as (sn & -> & W).
    exists ([percent; a; b] ++ sn). split; [reflexivity|]. apply WV_escape; [now apply escape_escaped|exact W].
  - apply bind_inv in H as ((n', t) & H1 & H). inversion H; subst. destruct (IH s n' r ltac:(lia) H1) as (sn & -> & W).
    exists (c :: sn). split; [reflexivity|]. apply WV_plain; [now apply Z.eqb_neq|exact W].
Qed.
(** What follows the end of a value does not look like an escape. *)
Definition no_escape (r : list Z) : Prop := match r with a :: b :: _ => escape a b = None | _ => True end.
Lemma value_complete : forall sv v r, written_value sv v -> no_escape r -> parse_value (sv ++ 37 :: r) = Ok (v, r).
Proof.
  intros sv v r W N. induction W as [|c s n P W IH|e x s n E W IH].
  - cbn [app parse_value]. change (37 =? percent) with true. cbn iota. destruct r as [|a [|b r]]; try reflexivity. cbn in N. now rewrite N.
  - cbn [app parse_value]. rewrite (proj2 (Z.eqb_neq c percent) P), IH. reflexivity.
  - inversion E as [f F|]; subst; cbn [app parse_value]; change (37 =? percent) with true; cbn iota.
    + rewrite (proj2 (escape_escaped 51 f 63)) by (now constructor). now rewrite IH.
    + change (escape 50 53) with (Some percent). cbn iota. now rewrite IH.
Qed.
Lemma written_no_escape : forall dig s ps, dig 50 = true -> dig 51 = true -> written dig s ps -> no_escape s.
Proof.
  intros dig s ps D2 D3 W. destruct W as [|sn n sv v s ps WN NO WV W]; [exact I|]. destruct WN as [|c s' n' Q P WN|e x s' n' E WN].
  - cbn [app]. destruct (sv ++ 37 :: s) as [|b t]; [exact I|]. reflexivity.
  - cbn [app]. cbn in NO. destruct (s' ++ 63 :: sv ++ 37 :: s) as [|b t]; [exact I|]. cbn. unfold escape.
    destruct (c =? 51) eqn:C1; [apply Z.eqb_eq in C1; congruence|]. destruct (c =? 50) eqn:C2; [apply Z.eqb_eq in C2; congruence|]. reflexivity.
  - destruct E; reflexivity.
Qed.
Lemma pairs_sound : forall dig n s ps, parse_pairs n dig s = Ok ps -> written dig s ps.
Proof.
  intros dig. induction n as [|n IH]; intros s ps H; destruct s as [|c s]; cbn [parse_pairs] in H; try (inversion H; constructor); try discriminate.
  apply bind_inv in H as ((name, r) & H1 & H). apply bind_inv in H as ([] & G & H). apply guard_err_false in G.
  apply bind_inv in H as ((v, r') & H2 & H). apply bind_inv in H as (ps' & H3 & H). apply ok_inj in H; subst ps.
  destruct (name_sound _ _ _ _ (le_n _) H1) as (sn & -> & WN). destruct (value_sound _ _ _ _ (le_n _) H2) as (sv & -> & WV).
  apply WR_pair; [exact WN| |exact WV|now apply IH]. destruct name; [exact I|]. now apply negb_true_iff.
Qed.
Lemma pairs_complete : forall dig s ps, dig 50 = true -> dig 51 = true -> written dig s ps -> forall n, (length s <= n)%nat -> parse_pairs n dig s = Ok ps.
Proof.
  intros dig s ps D2 D3 W. induction W as [|sn nm sv v s ps WN NO WV W IH]; intros n L; [destruct n; reflexivity|].
  assert (E : exists c t, sn ++ 63 :: sv ++ 37 :: s = c :: t) by (destruct sn; cbn; eauto). destruct E as (c & t & E).
  rewrite app_length in L. cbn [List.length] in L. rewrite app_length in L. cbn [List.length] in L.
  destruct n as [|n]; [lia|]. unfold parse_pairs. rewrite E. fold parse_pairs. rewrite <- E. rewrite (name_complete _ _ _ WN). cbn [bind].
  assert (match nm with c0 :: _ => negb (dig c0) | [] => true end = true) as -> by (destruct nm; [reflexivity|now apply negb_true_iff]).
  cbn [guard bind]. rewrite (value_complete _ _ _ WV (written_no_escape _ _ _ D2 D3 W)). cbn [bind]. rewrite IH by lia. reflexivity.
Qed.
Lemma parse_exact : forall dig s ps, dig 50 = true -> dig 51 = true -> (parse_utf8_pairs dig s = Ok ps <-> written dig s ps).
Proof.
  intros dig s ps D2 D3. split; [apply pairs_sound|]. intro W. now apply pairs_complete.
Qed.
Lemma write_name : forall n, written_name (flat_map write_char n) n.
Proof.
  induction n as [|c n IH]; [constructor|]. cbn [flat_map]. unfold write_char at 1. destruct (c =? 63) eqn:Q; [apply Z.eqb_eq in Q; subst; apply WN_escape; [constructor; now left|exact IH]|].
  destruct (c =? 37) eqn:P; [apply Z.eqb_eq in P; subst; apply WN_escape; [constructor|exact IH]|]. apply WN_plain; [now apply Z.eqb_neq|now apply Z.eqb_neq|exact IH].
Qed.
Lemma write_value : forall n, written_value (flat_map write_char n) n.
Proof.
  induction n as [|c n IH]; [constructor|]. cbn [flat_map]. unfold write_char at 1. destruct (c =? 63) eqn:Q; [apply Z.eqb_eq in Q; subst; apply WV_escape; [constructor; now left|exact IH]|].
  destruct (c =? 37) eqn:P; [apply Z.eqb_eq in P; subst; apply WV_escape; [constructor|exact IH]|]. apply WV_plain; [now apply Z.eqb_neq|exact IH].
Qed.
Lemma write_written : forall dig ps, Forall (fun p => name_ok dig (fst p)) ps -> written dig (write_pairs ps) ps.
Proof.
  intros dig. induction ps as [|(n, v) ps IH]; intro F; [constructor|]. inversion F as [|? ? N F']. unfold write_pairs. cbn [flat_map]. fold (write_pairs ps).
  unfold write_pair. cbn [fst snd]. rewrite <- app_assoc. cbn [app]. rewrite <- app_assoc. cbn [app]. apply WR_pair; [apply write_name|exact N|apply write_value|now apply IH].
Qed.
Lemma write_scalar : forall ps, Forall (fun p => Forall scalar (fst p) /\ Forall scalar (snd p)) ps -> Forall scalar (write_pairs ps).
Proof.
  assert (C : forall s, Forall scalar s -> Forall scalar (flat_map write_char s)).
  { induction s as [|c s IH]; intro F; [constructor|]. inversion F. cbn [flat_map]. apply Forall_app. split; [|now apply IH]. unfold write_char.
    destruct (c =? 63); [|destruct (c =? 37)]; repeat (apply Forall_cons; [first [assumption|unfold scalar; lia]|]); apply Forall_nil. }
  induction ps as [|(n, v) ps IH]; intro F; [constructor|]. inversion F as [|? ? N F']. unfold write_pairs. cbn [flat_map]. fold (write_pairs ps).
  cbn [fst snd] in N. apply Forall_app. split; [|now apply IH]. unfold write_pair. cbn [fst snd]. apply Forall_app. split; [now apply C|].
  constructor; [unfold scalar; lia|]. apply Forall_app. split; [now apply C|]. apply Forall_cons; [unfold scalar; lia|apply Forall_nil].
Qed.
Lemma unquote_parse : forall dig ps q, dig 50 = true -> dig 51 = true -> Forall (fun p => name_ok dig (fst p)) ps ->
  prepare_pairs (write_pairs ps) true = Ok q -> (let! t := unquote q in parse_utf8_pairs dig t) = Ok ps.
Proof.
  intros dig ps q D2 D3 N H. unfold prepare_pairs in H. rewrite (quote_round _ _ H). cbn [bind]. apply parse_exact; [assumption|assumption|now apply write_written].
Qed.
Lemma validate_exact : forall dig dec l must o, dig 50 = true -> dig 51 = true ->
  (validate_pairs dig dec l must = Ok o <->
   (no_entry "id_regInfo_utf8Pairs" l /\ must = false /\ o = None) \/
   exists v s t ps, the_first "id_regInfo_utf8Pairs" l v /\ distinct l /\ dec v = Some (s, []) /\ unquote s = Ok t /\ written dig t ps /\ o = Some ps).
Proof.
  intros dig dec l must o D2 D3. unfold validate_pairs. destruct (first_of _ l) as [v|] eqn:F.
  - pose proof (proj1 (first_some _ _ _) F) as TF. split.
    + intro H. apply bind_inv in H as ([] & G & H). apply guard_err_false in G. apply unique_spec in G.
      destruct (dec v) as [[s [|z y]]|] eqn:D; try discriminate. destruct (unquote s) as [t|] eqn:U; [|discriminate]. cbn [bind] in H.
      destruct (parse_utf8_pairs dig t) as [ps|] eqn:P; [|discriminate]. right. exists v, s, t, ps. do 4 (split; [assumption|]).
      split; [now apply parse_exact|congruence].
    + intros [(N & _)|(v' & s & t & ps & TF' & D & DE & U & W & ->)]; [apply first_none in N; congruence|].
      apply first_some in TF'. assert (v' = v) by congruence. subst v'. rewrite (proj2 (unique_spec _) D), DE, U. cbn [guard bind].
      now rewrite (proj2 (parse_exact dig t ps D2 D3) W).
  - pose proof (proj1 (first_none _ _) F) as N. split.
    + intro H. left. split; [exact N|]. destruct must; [discriminate|]. split; [reflexivity|congruence].
    + intros [(_ & -> & ->)|(v' & s & t & ps & TF' & _)]; [reflexivity|]. apply first_some in TF'. congruence.
Qed.
