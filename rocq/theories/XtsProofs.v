(** Proofs about extensions, cross-signed certificates and passwords. *)
From Coq Require Import String Lia.
From Verif Require Import Prelude PreludeFacts PyStr ProtMac GenModel GenProofs ChamProofs XtsModel XtsSpec.
Open Scope string_scope.
Open Scope Z_scope.
Open Scope list_scope.
Local Notation length := List.length.

Lemma has_id_iff id e : has_id id e = true <-> e_id e = id.
Proof. unfold has_id. apply String.eqb_eq. Qed.
Lemma get_ext_none l id : get_ext l id = None <-> absent l id.
Proof.
  unfold get_ext, absent. split.
  - intros H x I0 E. pose proof (find_none _ _ H x I0) as F. rewrite (proj2 (has_id_iff id x) E) in F. discriminate.
  - intros H. destruct (find (has_id id) l) as [e|] eqn:F; [|reflexivity]. apply find_some in F. destruct F as (I0 & E). apply has_id_iff in E. now destruct (H e I0).
Qed.
Lemma get_ext_some l id e : get_ext l id = Some e <-> first_of l id e.
Proof.
  unfold get_ext, first_of. split.
  - induction l as [|x l IH]; cbn [find]; [discriminate|]. destruct (has_id id x) eqn:E.
    + intros H. injection H as ->. apply has_id_iff in E. exists [], l. repeat split; auto.
    + intros H. destruct (IH H) as (a & b & -> & Ie & F). exists (x :: a), b. repeat split; auto. intros y [<-|Y]; [|auto]. intros D. rewrite (proj2 (has_id_iff id x) D) in E. discriminate.
  - intros (a & b & -> & Ie & F). induction a as [|x a IH]; cbn [app find].
    + now rewrite (proj2 (has_id_iff id e) Ie).
    + destruct (has_id id x) eqn:E; [apply has_id_iff in E; exfalso; exact (F x (or_introl eq_refl) E)|]. apply IH. intros y Y. apply F. now right.
Qed.

Lemma merge_eq six o : merge six o = let v := flat_map (one_type (others o)) six in v ++ not_included v (others o).
Proof.
  assert (E : forall s, flat_map (fun x : string * option ext => match snd x with Some e => [e] | None => [] end) s = flat_map (one_type []) s ++ []).
  { intros s. rewrite app_nil_r. apply flat_map_ext. intros (i & [e|]); reflexivity. }
  destruct o as [[|e l]|]; cbn [merge others]; cbv zeta; [apply E | reflexivity | apply E].
Qed.
Lemma of_app id a b : of_type id (a ++ b) = of_type id a ++ of_type id b.
Proof. apply filter_app. Qed.
Lemma of_none id l : absent l id -> of_type id l = [].
Proof.
  unfold of_type, absent. induction l as [|x l IH]; intros H; [reflexivity|]. cbn [filter].
  destruct (has_id id x) eqn:E; [apply has_id_iff in E; exfalso; exact (H x (or_introl eq_refl) E)|]. apply IH. intros y Y. apply H. now right.
Qed.
Lemma of_all id l : (forall x, In x l -> e_id x = id) -> of_type id l = l.
Proof.
  unfold of_type. induction l as [|x l IH]; intros H; [reflexivity|]. cbn [filter]. rewrite (proj2 (has_id_iff id x)) by (apply H; now left).
  f_equal. apply IH. intros y Y. apply H. now right.
Qed.
Lemma contains_iff id l : contains_id id l = true <-> ~ absent l id.
Proof.
  unfold contains_id, absent. rewrite existsb_exists. split.
  - intros (x & X & E) H. apply has_id_iff in E. exact (H x X E).
  - intros H. destruct (existsb (has_id id) l) eqn:E; [apply existsb_exists in E; exact E|]. exfalso. apply H. intros x X Ex.
    assert (existsb (has_id id) l = true) by (apply existsb_exists; exists x; split; [exact X | now apply has_id_iff]). congruence.
Qed.
Lemma of_not_included id v o : of_type id (not_included v o) = if contains_id id v then [] else of_type id o.
Proof.
  unfold of_type, not_included. induction o as [|x o IH]; cbn [filter]; [now destruct (contains_id id v)|].
  destruct (has_id id x) eqn:E.
  - pose proof (proj1 (has_id_iff id x) E) as Ex. rewrite Ex. destruct (contains_id id v) eqn:C; cbn [negb].
    + exact IH.
    + cbn [filter]. rewrite E. now f_equal.
  - destruct (negb (contains_id (e_id x) v)); [cbn [filter]; rewrite E; exact IH | exact IH].
Qed.

Definition six L t r : Prop := exists u s a k b n,
  l_usage L t = Ok u /\ l_ski L t = Ok s /\ l_aki L t = Ok a /\ l_eku L t = Ok k /\ l_basic L t = Ok b /\ l_san L t = Ok n /\
  r = [("id_ce_keyUsage", u); ("id_ce_subjectKeyIdentifier", s); ("id_ce_authorityKeyIdentifier", a); ("id_ce_extKeyUsage", k);
       ("id_ce_basicConstraints", b); ("id_ce_subjectAltName", n)].
Lemma known_all L l : unknown_exts L l = false <-> forall e, In e l -> l_known L (e_id e) = true.
Proof.
  unfold unknown_exts. induction l as [|x l IH]; cbn [existsb].
  - split; [intros _ e [] | reflexivity].
  - rewrite orb_false_iff, negb_false_iff, IH. split.
    + intros (A & B) e [<-|E]; auto.
    + intros H. split; [apply H; now left | intros e E; apply H; now right].
Qed.
Lemma check_iff L t o au r : check_extensions L t o au = Ok r <->
  (exists p, l_parse L t = Ok p /\ (au = true \/ forall e, In e (others p) -> l_known L (e_id e) = true)) /\ l_logic L t = Ok tt /\
  exists x, six L t x /\ r = merge x o.
Proof.
  unfold check_extensions. split.
  - intros H. step H p P. cbv zeta in H. step H g G. step H lo Lo. step H u U. step H s Sk. step H a A. step H k K. step H b B. step H n Nn. injection H as <-.
    apply guard_iff, negb_true_iff, andb_false_iff in G. destruct lo. split; [|split; [exact Lo|]].
    + exists p. split; [exact P|]. destruct G as [G|G]; [right; apply known_all; exact G | left; now apply negb_false_iff in G].
    + eexists. split; [exists u, s, a, k, b, n; repeat split; assumption | reflexivity].
  - intros ((p & P & G) & Lo & x & (u & s & a & k & b & n & U & Sk & A & K & B & Nn & ->) & ->). rewrite P. cbn [bind]. cbv zeta.
    assert (Gd : unknown_exts L (match p with Some l => l | None => [] end) && negb au = false).
    { destruct G as [-> | G]; [apply andb_false_r|]. change (match p with Some l => l | None => [] end) with (others p). now rewrite (proj2 (known_all L (others p)) G). }
    rewrite Gd. cbn [negb guard bind]. rewrite Lo. cbn [bind]. rewrite U. cbn [bind]. rewrite Sk. cbn [bind]. rewrite A. cbn [bind]. rewrite K. cbn [bind].
    rewrite B. cbn [bind]. rewrite Nn. reflexivity.
Qed.
Lemma accepted L t o au : (exists r, check_extensions L t o au = Ok r) <->
  (exists p, l_parse L t = Ok p /\ (au = true \/ forall e, In e (others p) -> l_known L (e_id e) = true)) /\ l_logic L t = Ok tt /\
  forall id f, check_of L id f -> exists x, f t = Ok x.
Proof.
  split.
  - intros (r & H). apply check_iff in H. destruct H as (P & Lo & x & (u & s & a & k & b & n & U & Sk & A & K & B & Nn & _) & _).
    split; [exact P|]. split; [exact Lo|]. intros id f Cf. unfold check_of in Cf. decompose [or and] Cf; subst; eauto.
  - intros (P & Lo & F). unfold check_of in F.
    destruct (F "id_ce_keyUsage" (l_usage L)) as (u & U); [tauto|]. destruct (F "id_ce_subjectKeyIdentifier" (l_ski L)) as (s & Sk); [tauto|].
    destruct (F "id_ce_authorityKeyIdentifier" (l_aki L)) as (a & A); [tauto|]. destruct (F "id_ce_extKeyUsage" (l_eku L)) as (k & K); [tauto|].
    destruct (F "id_ce_basicConstraints" (l_basic L)) as (b & B); [tauto|]. destruct (F "id_ce_subjectAltName" (l_san L)) as (n & Nn); [tauto|].
    eexists. apply check_iff. split; [exact P|]. split; [exact Lo|]. eexists. split; [|reflexivity]. exists u, s, a, k, b, n. auto 8.
Qed.

(** The block of one type. *)
Lemma block_ids o x : (forall e, snd x = Some e -> e_id e = fst x) -> forall e, In e (one_type o x) -> e_id e = fst x.
Proof.
  intros T e. unfold one_type. destruct (snd x) as [y|].
  - destruct (get_ext o (fst x)); intros [<-|[]]; now apply T.
  - destruct (get_ext o (fst x)) as [y|] eqn:G; [|intros []]. intros [<-|[]]. apply get_ext_some in G. destruct G as (_ & _ & _ & E & _). exact E.
Qed.
Lemma block_of o x id : (forall e, snd x = Some e -> e_id e = fst x) -> of_type id (one_type o x) = if String.eqb (fst x) id then one_type o x else [].
Proof.
  intros T. destruct (String.eqb_spec (fst x) id) as [E|E].
  - apply of_all. intros e I0. rewrite <- E. exact (block_ids o x T e I0).
  - apply of_none. intros e I0 D. apply E. rewrite <- D. symmetry. exact (block_ids o x T e I0).
Qed.
Lemma six_typed L t x : typed L -> six L t x -> forall p, In p x -> forall e, snd p = Some e -> e_id e = fst p.
Proof.
  intros T (u & s & a & k & b & n & U & Sk & A & K & B & Nn & ->) p I0 e E. unfold typed, check_of in T. cbn [In] in I0.
  destruct I0 as [<- | [<- | [<- | [<- | [<- | [<- | []]]]]]]; cbn [fst snd] in *; subst.
  - apply (T _ (l_usage L) t); [tauto | exact U].
  - apply (T _ (l_ski L) t); [tauto | exact Sk].
  - apply (T _ (l_aki L) t); [tauto | exact A].
  - apply (T _ (l_eku L) t); [tauto | exact K].
  - apply (T _ (l_basic L) t); [tauto | exact B].
  - apply (T _ (l_san L) t); [tauto | exact Nn].
Qed.
Lemma of_blocks o id : forall x, (forall p, In p x -> forall e, snd p = Some e -> e_id e = fst p) ->
  of_type id (flat_map (one_type o) x) = flat_map (fun p => if String.eqb (fst p) id then one_type o p else []) x.
Proof.
  induction x as [|p x IH]; intros T; [reflexivity|]. cbn [flat_map]. rewrite of_app, block_of by (apply T; now left). f_equal. apply IH. intros q Q. apply T. now right.
Qed.
Lemma of_merge x o id : (forall p, In p x -> forall e, snd p = Some e -> e_id e = fst p) ->
  let v := flat_map (fun p => if String.eqb (fst p) id then one_type (others o) p else []) x in
  of_type id (merge x o) = match v with [] => of_type id (others o) | _ => v end.
Proof.
  intros T v. rewrite merge_eq. cbv zeta. rewrite of_app, of_not_included, (of_blocks (others o) id x T). fold v.
  destruct (contains_id id (flat_map (one_type (others o)) x)) eqn:C.
  - rewrite app_nil_r. destruct v as [|e v'] eqn:V; [|reflexivity]. exfalso. apply contains_iff in C. apply C. intros e I0 E.
    assert (J : In e (of_type id (flat_map (one_type (others o)) x))) by (apply filter_In; split; [exact I0 | now apply has_id_iff]).
    rewrite (of_blocks (others o) id x T) in J. fold v in J. rewrite V in J. destruct J.
  - destruct v as [|e v'] eqn:V; [reflexivity|]. exfalso. assert (J : In e v) by (rewrite V; now left). subst v.
    rewrite <- (of_blocks (others o) id x T) in J. apply filter_In in J. destruct J as (I0 & E). apply has_id_iff in E.
    assert (contains_id id (flat_map (one_type (others o)) x) = true) by (apply contains_iff; intros H; exact (H e I0 E)). congruence.
Qed.
Lemma of_looked L t o au r id f x : typed L -> check_extensions L t o au = Ok r -> check_of L id f -> f t = Ok x ->
  of_type id r = match x with Some e => [e] | None => match get_ext (others o) id with Some e => [e] | None => [] end end.
Proof.
  intros T H Cf X. apply check_iff in H. destruct H as (_ & _ & y & Y & ->). rewrite (of_merge y o id (six_typed L t y T Y)).
  assert (E : flat_map (fun p => if String.eqb (fst p) id then one_type (others o) p else []) y = one_type (others o) (id, x)).
  { destruct Y as (u & s & a & k & b & n & U & Sk & A & K & B & Nn & ->). unfold check_of in Cf.
    destruct Cf as [(-> & ->) | [(-> & ->) | [(-> & ->) | [(-> & ->) | [(-> & ->) | (-> & ->)]]]]]; cbn [flat_map fst String.eqb Ascii.eqb Bool.eqb app];
      rewrite ?app_nil_r; do 2 f_equal; congruence. }
  rewrite E. unfold one_type. cbn [fst snd]. destruct x as [e|]; [destruct (get_ext (others o) id); reflexivity|].
  destruct (get_ext (others o) id) as [e|] eqn:G; [reflexivity|]. apply of_none. now apply get_ext_none.
Qed.
Lemma of_rest L t o au r id : typed L -> check_extensions L t o au = Ok r -> ~ looked_at id -> of_type id r = of_type id (others o).
Proof.
  intros T H Nl. apply check_iff in H. destruct H as (_ & _ & y & Y & ->). rewrite (of_merge y o id (six_typed L t y T Y)).
  assert (E : flat_map (fun p => if String.eqb (fst p) id then one_type (others o) p else []) y = []).
  { destruct Y as (u & s & a & k & b & n & U & Sk & A & K & B & Nn & ->). unfold looked_at in Nl. cbn [In] in Nl. cbn [flat_map fst].
    repeat match goal with |- context [String.eqb ?x id] => destruct (String.eqb_spec x id); [exfalso; apply Nl; tauto|] end. reflexivity. }
  rewrite E. reflexivity.
Qed.

(** ** Cross-signed certificates *)

Lemma must_iff X c : must_be_ca X c = Ok tt <-> exists b, ca_flag X c b.
Proof.
  unfold must_be_ca, is_ca, ca_flag. destruct (x_basic X c) as [[b|]|e]; cbn; split; intros H; try discriminate; eauto; destruct H as (b' & H); congruence.
Qed.
Lemma ids_iff X c i : key_identifiers X c i = Ok tt <-> exists s t a, x_ski X c = Ok (Some s) /\ x_ski X i = Ok (Some t) /\ s <> t /\ x_aki X c = Ok a.
Proof.
  unfold key_identifiers. split.
  - intros H. step H s Sk. step H t T. step H a A. destruct s as [s|], t as [t|]; try discriminate. apply guard_iff, negb_true_iff in H.
    exists s, t, a. repeat split; auto. intros E. apply bytes_eqb_iff in E. congruence.
  - intros (s & t & a & Sk & T & N0 & A). rewrite Sk. cbn [bind]. rewrite T. cbn [bind]. rewrite A. cbn [bind].
    destruct (bytes_eqb s t) eqn:E; [apply bytes_eqb_iff in E; contradiction | reflexivity].
Qed.
Lemma ext_eqb_iff a b : ext_eqb a b = true <-> a = b.
Proof.
  unfold ext_eqb. rewrite andb_true_iff, String.eqb_eq, bytes_eqb_iff. destruct a, b. cbn. split; [intros (-> & ->); reflexivity | intros H; injection H; auto].
Qed.
Lemma cross_iff X c t te i : ca_cross_signed X c t te i = Ok tt <->
  (exists b, ca_flag X c b) /\ (exists b, ca_flag X i b) /\
  x_same X (x_subject X c) (x_issuer X c) = false /\ x_same X (x_subject X c) (x_subject X i) = false /\
  (exists s u a, x_ski X c = Ok (Some s) /\ x_ski X i = Ok (Some u) /\ s <> u /\ x_aki X c = Ok a) /\
  (exists k, x_key X i = Ok k /\ x_verify X c k = Ok tt) /\ x_fits X t c = true /\ forall e, In e te -> In e (x_exts X c).
Proof.
  unfold ca_cross_signed, cross_signed. split.
  - intros H. step H g G. step H f F. step G u1 M1. step G u2 M2. step G u3 M3. step G u4 M4. step G u5 M5. step G k K. destruct g, u1, u2, u5.
    apply must_iff in M1, M2. apply guard_iff, negb_true_iff in M3, M4. apply ids_iff in M5. apply guard_iff in F, H.
    repeat (split; [eauto|]). intros e E. pose proof (proj1 (forallb_forall _ _) H e E) as Q. apply existsb_exists in Q. destruct Q as (y & Y & Q).
    apply ext_eqb_iff in Q. now subst.
  - intros (M1 & M2 & M3 & M4 & M5 & (k & K & V) & F & E). apply must_iff in M1, M2. apply ids_iff in M5. rewrite M1. cbn [bind]. rewrite M2. cbn [bind].
    rewrite M3, M4. cbn [negb guard bind]. rewrite M5. cbn [bind]. rewrite K. cbn [bind]. rewrite V. cbn [bind]. rewrite F. cbn [guard bind]. apply guard_iff.
    apply forallb_forall. intros e I0. apply existsb_exists. exists e. split; [exact (E e I0) | now apply ext_eqb_iff].
Qed.
Lemma cross_ca X f c t te i : ca_cross_signed (with_ca X f) c t te i = ca_cross_signed X c t te i.
Proof.
  assert (M : forall c, must_be_ca (with_ca X f) c = must_be_ca X c) by (intros c'; unfold must_be_ca, is_ca; cbn; destruct (x_basic X c') as [[b|]|e]; reflexivity).
  unfold ca_cross_signed, cross_signed. rewrite !M. reflexivity.
Qed.
Lemma cross_aki X f c t te i : ca_cross_signed (with_aki X f) c t te i = ca_cross_signed X c t te i.
Proof.
  assert (M : key_identifiers (with_aki X f) c i = key_identifiers X c i).
  { unfold key_identifiers. cbn. destruct (x_ski X c); [|reflexivity]. cbn. destruct (x_ski X i); [|reflexivity]. cbn. destruct (x_aki X c); reflexivity. }
  unfold ca_cross_signed, cross_signed. rewrite M. reflexivity.
Qed.

(** ** Passwords *)

Lemma within_iff p : forall s, within p s = true <-> occurs_in p s.
Proof.
  induction s as [|x s IH]; cbn [within]; rewrite orb_true_iff.
  - split.
    + intros [H|H]; [|discriminate]. exists "", "". destruct p; [reflexivity | discriminate].
    + intros (a & b & H). left. destruct a; [|discriminate]. destruct p; [reflexivity | discriminate].
  - split.
    + intros [H|H].
      * exists "". assert (E : exists b, String x s = (p ++ b)%string).
        { clear IH. revert H. generalize (String x s). induction p as [|y p IHp]; intros z H; [exists z; reflexivity|]. destruct z as [|z0 z]; [discriminate|].
          cbn in H. destruct (Ascii.ascii_dec y z0) as [->|D]; [|discriminate]. destruct (IHp z H) as (b & ->). exists b. reflexivity. }
        destruct E as (b & E). exists b. exact E.
      * apply IH in H. destruct H as (a & b & ->). exists (String x a), b. reflexivity.
    + intros (a & b & H). destruct a as [|y a].
      * left. cbn in H. rewrite H. clear. induction p as [|y p IHp]; [destruct b; reflexivity|]. cbn. destruct (Ascii.ascii_dec y y); [exact IHp | contradiction].
      * right. apply IH. injection H as _ ->. exists a, b. reflexivity.
Qed.
Lemma within_not p s : within p s = false <-> ~ occurs_in p s.
Proof. rewrite <- within_iff. destruct (within p s); split; congruence. Qed.

Lemma times_length A n (s : list A) : length (times n s) = (n * length s)%nat.
Proof. induction n as [|n IH]; [reflexivity|]. cbn [times]. rewrite app_length, IH. reflexivity. Qed.
Lemma times_nth A (s : list A) : s <> [] -> forall n i, (i < n * length s)%nat -> nth_error (times n s) i = nth_error s (i mod length s).
Proof.
  intros N0. assert (P : length s <> O) by (destruct s; [contradiction | discriminate]).
  induction n as [|n IH]; intros i H; [lia|]. cbn [times]. destruct (Nat.lt_ge_cases i (length s)) as [L|L].
  - rewrite nth_error_app1 by exact L. now rewrite Nat.mod_small.
  - rewrite nth_error_app2 by exact L. rewrite IH by (cbn [Nat.mul] in H; lia). f_equal.
    replace i with ((i - length s) + 1 * length s)%nat at 2 by lia. now rewrite Nat.mod_add.
Qed.
Lemma firstn_nth A : forall n (l : list A) i, (i < n)%nat -> nth_error (firstn n l) i = nth_error l i.
Proof. induction n as [|n IH]; intros l i H; [lia|]. destruct l as [|x l]; [now destruct i|]. destruct i as [|i]; [reflexivity|]. cbn. apply IH. lia. Qed.
Lemma expand_repeated (s : bytes) n : s <> [] -> repeated s (firstn n (times (n / length s + 1) s)) n.
Proof.
  intros N0. assert (P : length s <> O) by (destruct s; [contradiction | discriminate]).
  assert (B : (n < (n / length s + 1) * length s)%nat).
  { pose proof (Nat.div_mod n (length s) P) as D. pose proof (Nat.mod_upper_bound n (length s) P) as U. nia. }
  split.
  - rewrite firstn_length, times_length. lia.
  - intros i H. rewrite firstn_nth by exact H. apply times_nth; [exact N0 | lia].
Qed.
Lemma nth_all A : forall (a b : list A), length a = length b -> (forall i, (i < length a)%nat -> nth_error a i = nth_error b i) -> a = b.
Proof.
  induction a as [|x a IH]; intros [|y b] L H; try discriminate; [reflexivity|]. f_equal.
  - specialize (H O). cbn in H. assert (E : Some x = Some y) by (apply H; lia). now injection E.
  - apply IH; [now injection L|]. intros i I0. specialize (H (Datatypes.S i)). cbn in H. apply H. lia.
Qed.
Lemma repeated_unique s r r' n : repeated s r n -> repeated s r' n -> r = r'.
Proof. intros (L & H) (L' & H'). apply nth_all; [congruence|]. intros i I0. rewrite L in I0. now rewrite H, H'. Qed.
Lemma expand_iff s n r : expand s n = Ok r <-> s <> [] /\ 0 <= n /\ repeated s r (Z.to_nat n).
Proof.
  unfold expand. destruct s as [|x s]; [split; [discriminate | intros (H & _); contradiction]|]. set (w := x :: s). assert (N0 : w <> []) by discriminate.
  destruct (Z.ltb_spec n 0) as [L|L].
  - split; [discriminate | lia].
  - split.
    + intros H. injection H as <-. split; [exact N0|]. split; [exact L | now apply expand_repeated].
    + intros (_ & _ & R). f_equal. apply (repeated_unique w _ _ (Z.to_nat n)); [now apply expand_repeated | exact R].
Qed.
Lemma expand_size s n r : 0 <= n -> (expand s n = Ok r <-> s <> [] /\ repeated s r (Z.to_nat n)).
Proof. intros H. rewrite expand_iff. tauto. Qed.
Lemma password_fixed prot hash n : size_of prot hash n -> 0 <= n /\ forall pw, password_in_size prot pw hash = expand pw n.
Proof.
  intros H. unfold password_in_size.
  destruct H as [-> -> | -> Hh | K G A | K G A B | K G A B Cc]; (split; [lia|]); intros pw.
  - reflexivity.
  - change (String.eqb "kmac" "kmac") with true. cbv iota. destruct hash as [h|]; [|reflexivity]. destruct (String.eqb_spec h "shake128") as [->|D]; [contradiction | reflexivity].
  - rewrite (proj2 (String.eqb_neq _ _) K), (proj2 (within_iff _ _) G), (proj2 (within_iff _ _) A). reflexivity.
  - rewrite (proj2 (String.eqb_neq _ _) K), (proj2 (within_iff _ _) G), (proj2 (within_not _ _) A), (proj2 (within_iff _ _) B). reflexivity.
  - rewrite (proj2 (String.eqb_neq _ _) K), (proj2 (within_iff _ _) G), (proj2 (within_not _ _) A), (proj2 (within_not _ _) B), (proj2 (within_iff _ _) Cc). reflexivity.
Qed.
Lemma password_iff prot pw hash r : password_in_size prot pw hash = Ok r <->
  (any_size prot /\ r = pw) \/ exists n, size_of prot hash n /\ pw <> [] /\ repeated pw r (Z.to_nat n).
Proof.
  split.
  - intros H. unfold password_in_size in H. destruct (String.eqb_spec prot "kmac") as [E|E].
    + right. destruct hash as [h|].
      * destruct (String.eqb_spec h "shake128") as [D|D]; apply expand_iff in H; destruct H as (A & _ & B).
        -- exists 16. split; [apply S_kmac128; congruence | auto].
        -- exists 32. split; [apply S_kmac; congruence | auto].
      * apply expand_iff in H; destruct H as (A & _ & B). exists 32. split; [apply S_kmac; [exact E | discriminate] | auto].
    + destruct (within "gmac" prot) eqn:G; [|apply within_not in G; injection H as <-; left; split; [split; assumption | reflexivity]].
      apply within_iff in G. right. destruct (within "128" prot) eqn:A.
      * apply within_iff in A. apply expand_iff in H. destruct H as (P & _ & B). exists 16. split; [now apply S_128 | auto].
      * apply within_not in A. destruct (within "192" prot) eqn:A2.
        -- apply within_iff in A2. apply expand_iff in H. destruct H as (P & _ & B). exists 24. split; [now apply S_192 | auto].
        -- apply within_not in A2. destruct (within "256" prot) eqn:A3; [|discriminate].
           apply within_iff in A3. apply expand_iff in H. destruct H as (P & _ & B). exists 32. split; [now apply S_256 | auto].
  - intros [((K & G) & ->) | (n & Sz & P & R)].
    + unfold password_in_size. rewrite (proj2 (String.eqb_neq _ _) K), (proj2 (within_not _ _) G). reflexivity.
    + destruct (password_fixed prot hash n Sz) as (Nn & F). rewrite F. apply expand_iff. auto.
Qed.
Lemma double_nth (s : bytes) i : s <> [] -> nth_error (s ++ s) (i mod length (s ++ s)) = nth_error s (i mod length s).
Proof.
  intros N0. assert (P : length s <> O) by (destruct s; [contradiction | discriminate]).
  assert (E : s ++ s = times 2 s) by (cbn [times]; now rewrite app_nil_r). assert (L : length (s ++ s) = (length s * 2)%nat) by (rewrite app_length; lia).
  rewrite L. rewrite E, times_nth; [|exact N0|].
  - f_equal. rewrite Nat.mod_mul_r by lia. rewrite Nat.mul_comm, Nat.mod_add by exact P. now rewrite Nat.mod_mod.
  - pose proof (Nat.mod_upper_bound i (length s * 2)). lia.
Qed.
Lemma password_double prot hash n pw : size_of prot hash n -> password_in_size prot (pw ++ pw) hash = password_in_size prot pw hash.
Proof.
  intros Sz. destruct (password_fixed prot hash n Sz) as (Nn & F). rewrite !F. destruct pw as [|x pw]; [reflexivity|]. set (w := x :: pw).
  assert (N0 : w <> []) by discriminate. assert (N1 : w ++ w <> []) by discriminate.
  assert (E : expand w n = Ok (firstn (Z.to_nat n) (times (Z.to_nat n / length w + 1) w))) by (apply expand_iff; split; [exact N0|]; split; [exact Nn | now apply expand_repeated]).
  rewrite E. apply expand_iff. split; [exact N1|]. split; [exact Nn|]. destruct (expand_repeated w (Z.to_nat n) N0) as (L & H). split; [exact L|].
  intros i I0. rewrite (H i I0). symmetry. now apply double_nth.
Qed.
Lemma password_cut prot hash n pw : size_of prot hash n -> n <= Z.of_nat (length pw) -> password_in_size prot pw hash = Ok (firstn (Z.to_nat n) pw).
Proof.
  intros Sz L. assert (P : 0 < n) by (destruct Sz; lia). destruct (password_fixed prot hash n Sz) as (Nn & F). rewrite F. apply expand_iff.
  assert (N0 : pw <> []) by (intros ->; cbn in L; lia). split; [exact N0|]. split; [exact Nn|]. split.
  - rewrite firstn_length. lia.
  - intros i I0. rewrite firstn_nth by exact I0. rewrite Nat.mod_small by lia. reflexivity.
Qed.
