From Coq Require Import String Ascii.
From Verif Require Import Prelude PyStr CompLoadModel HdrModel ProtTab ProtModel PopModel PopSpec PairModel PairSpec PairProofs.
Open Scope string_scope.
Open Scope Z_scope.
Open Scope list_scope.
Local Notation length := List.length.

Lemma hex_iff c n : hex_value c = Some n <-> hex_of c n.
Proof.
  unfold hex_value, hex_of. destruct ((48 <=? c) && (c <=? 57)) eqn:E1; [|destruct ((65 <=? c) && (c <=? 70)) eqn:E2; [|destruct ((97 <=? c) && (c <=? 102)) eqn:E3]].
  - split; [intro H; apply some_inj in H; lia | intro H; f_equal; lia].
  - split; [intro H; apply some_inj in H; lia | intro H; f_equal; lia].
  - split; [intro H; apply some_inj in H; lia | intro H; f_equal; lia].
  - split; [discriminate | lia].
Qed.

Lemma pct_sound : forall n s, (length s <= n)%nat -> pct s (unquote_bytes s).
Proof.
  induction n as [|n IH]; intros s L; destruct s as [|c s]; try constructor; cbn [List.length] in L; [lia|].
  cbn [unquote_bytes]. destruct (c =? percent) eqn:P.
  - apply Z.eqb_eq in P. unfold percent in P. subst c. destruct s as [|a [|b r']].
    + apply PC_lone; [intros; discriminate|apply PC_end].
    + apply PC_lone; [intros; discriminate|apply IH; lia].
    + destruct (hex_value a) as [x|] eqn:A; [destruct (hex_value b) as [y|] eqn:B|].
      * apply PC_escape; [now apply hex_iff|now apply hex_iff|]. apply IH. cbn [List.length] in L. lia.
      * apply PC_lone; [|apply IH; lia]. intros a' b' t x' y' E HA HB. injection E as <- <- <-. apply hex_iff in HB. congruence.
      * apply PC_lone; [|apply IH; lia]. intros a' b' t x' y' E HA HB. injection E as <- <- <-. apply hex_iff in HA. congruence.
  - apply PC_plain; [|apply IH; lia]. apply Z.eqb_neq in P. exact P.
Qed.

Lemma pct_fun s r r' : pct s r -> pct s r' -> r = r'.
Proof.
  intro H. revert r'. induction H as [|a b x y s r A B H IH|c s r N H IH|s r N H IH]; intros r' H'.
  - inversion H'; reflexivity.
  - inversion H' as [|a' b' x' y' s' q A' B' Q|c' s' q N' Q|s' q N' Q]; subst.
    + apply hex_iff in A, B, A', B'. assert (x' = x) by congruence. assert (y' = y) by congruence. subst. f_equal. now apply IH.
    + now elim N'.
    + exfalso. exact (N' _ _ _ _ _ eq_refl A B).
  - inversion H' as [|a' b' x' y' s' q A' B' Q|c' s' q N' Q|s' q N' Q]; subst; try (now elim N). f_equal. now apply IH.
  - inversion H' as [|a' b' x' y' s' q A' B' Q|c' s' q N' Q|s' q N' Q]; subst.
    + exfalso. exact (N _ _ _ _ _ eq_refl A' B').
    + now elim N'.
    + f_equal. now apply IH.
Qed.

Lemma pct_iff s r : unquote_bytes s = r <-> pct s r.
Proof. split; [intros <-; apply (pct_sound (length s)); lia|]. intro H. exact (pct_fun _ _ _ (pct_sound (length s) s ltac:(lia)) H). Qed.

Definition plain (s : list Z) : Prop := Forall (fun c => 0 <= c /\ c <> 37) s.

Lemma plain_bytes s : plain s -> unquote_bytes s = s.
Proof.
  intro F. apply pct_iff. induction F as [|c s [_ C] F IH]; [constructor|]. now apply PC_plain.
Qed.
Lemma plain_decode s : Forall (fun c => 0 <= c < 128) s -> utf8_decode s = Some s.
Proof. induction 1 as [|c s C F IH]; [reflexivity|]. cbn [utf8_decode]. replace ((0 <=? c) && (c <? 128)) with true by lia. now rewrite IH. Qed.

Lemma plain_from s : forall run, plain run -> Forall (fun c => 0 <= c < 128) run -> plain s -> unquote_from run s = Ok (run ++ s).
Proof.
  induction s as [|c s IH]; intros run P A F; cbn [unquote_from].
  - unfold flush. rewrite plain_bytes by exact P. rewrite plain_decode by exact A. now rewrite app_nil_r.
  - inversion F as [|? ? [C0 C1] F']; subst. destruct (c <? 128) eqn:E.
    + rewrite IH; [now rewrite <- app_assoc| | |exact F'].
      * apply Forall_app. split; [exact P|]. constructor; [now split|constructor].
      * apply Forall_app. split; [exact A|]. constructor; [lia|constructor].
    + unfold flush. rewrite plain_bytes by exact P. rewrite plain_decode by exact A. cbn [bind].
      rewrite (IH [] ltac:(constructor) ltac:(constructor) F'). reflexivity.
Qed.

Lemma unquote_any s : Forall (fun c => 0 <= c) s -> unquote s = unquote_from [] s.
Proof.
  intro F. unfold unquote. destruct (existsb (Z.eqb percent) s) eqn:E; [reflexivity|].
  symmetry. apply (plain_from s []); [constructor|constructor|]. apply Forall_forall. intros c C. split; [exact (proj1 (Forall_forall _ _) F c C)|].
  intros ->. assert (T : existsb (Z.eqb percent) s = true) by (apply existsb_exists; exists 37; split; [exact C|reflexivity]). congruence.
Qed.

Theorem unquote_ascii s t : Forall (fun c => 0 <= c < 128) s -> (unquote s = Ok t <-> exists b, pct s b /\ utf8_encode t = Some b).
Proof.
  intro F. rewrite unquote_any by (eapply Forall_impl; [|exact F]; cbn; lia). rewrite unquote_run by exact F. cbn [app]. unfold flush. split.
  - destruct (utf8_decode (unquote_bytes s)) as [x|] eqn:D; [|discriminate]. intro H. apply ok_inj in H. subst t.
    exists (unquote_bytes s). split; [now apply pct_iff|]. apply (decode_inv (length (unquote_bytes s))); [lia|exact D].
  - intros (b & P & E). apply pct_iff in P. rewrite P, (utf8_round _ _ E). reflexivity.
Qed.

Lemma from_split c y : 128 <= c -> forall x run, unquote_from run (x ++ c :: y) =
  let! a := unquote_from run x in let! b := unquote_from [] y in Ok (a ++ c :: b).
Proof.
  intro C. induction x as [|d x IH]; intro run; cbn [app unquote_from].
  - replace (c <? 128) with false by lia. reflexivity.
  - destruct (d <? 128); [apply IH|]. destruct (flush run) as [a|]; [|reflexivity]. cbn [bind]. rewrite IH.
    destruct (unquote_from [] x) as [b|]; [|reflexivity]. cbn [bind]. destruct (unquote_from [] y) as [e|]; [|reflexivity]. cbn [bind].
    now rewrite <- app_assoc.
Qed.

Theorem unquote_wide x c y t : Forall (fun d => 0 <= d) (x ++ y) -> 128 <= c ->
  (unquote (x ++ c :: y) = Ok t <-> exists a b, unquote x = Ok a /\ unquote y = Ok b /\ t = a ++ c :: b).
Proof.
  intros F C. apply Forall_app in F as [FX FY]. rewrite !unquote_any; [|exact FY|exact FX|apply Forall_app; split; [exact FX|constructor; [lia|exact FY]]].
  rewrite from_split by exact C. split.
  - destruct (unquote_from [] x) as [a|]; [|discriminate]. destruct (unquote_from [] y) as [b|]; [|discriminate]. cbn [bind]. intro H. apply ok_inj in H.
    exists a, b. now split; [|split].
  - intros (a & b & -> & -> & ->). reflexivity.
Qed.

Theorem quote_plain s : Forall (fun c => In c unreserved) s -> quote s = Ok s.
Proof.
  assert (K : forallb (fun c => safe c && (0 <=? c) && (c <? 128)) unreserved = true) by (vm_compute; reflexivity).
  rewrite forallb_forall in K. intro F. unfold quote.
  assert (E : utf8_encode s = Some s /\ flat_map quote_byte s = s).
  { induction F as [|c s C F [IH1 IH2]]; [now split|]. apply K in C. apply andb_true_iff in C as [C C3]. apply andb_true_iff in C as [C1 C2].
    cbn [utf8_encode flat_map]. unfold quote_byte. rewrite C1, IH1. unfold utf8_char. replace (c <? 0) with false by lia. rewrite C3. cbn [app]. split; [reflexivity|]. f_equal. exact IH2. }
  destruct E as [-> ->]. reflexivity.
Qed.
