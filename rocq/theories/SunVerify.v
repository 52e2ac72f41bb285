(** Proofs about finding, verifying and issuing Sun hybrid certificates, and about the alternative key of a certificate. *)
From Coq Require Import String Ascii.
From Verif Require Import Prelude PreludeFacts ProtTab HdrModel ProtMac ChamProofs CatModel CatSpec CatProofs CatCrl SunModel SunSpec SunProofs SunForm.
Open Scope string_scope.
Open Scope Z_scope.
Open Scope list_scope.

(** ** Finding *)
Lemma by_value_iff L l b : by_value_sig L l = Ok b <->
  if b then exists x e y a r, l = x ++ e :: y /\ x_id e = SIG_EXT /\ l_altdec L (x_val e) = Some (a, r) /\ a_by a = true
    /\ (forall e', In e' x -> x_id e' = SIG_EXT -> exists a' r', l_altdec L (x_val e') = Some (a', r') /\ a_by a' = false)
  else forall e, In e l -> x_id e = SIG_EXT -> exists a r, l_altdec L (x_val e) = Some (a, r) /\ a_by a = false.
Proof.
  induction l as [|e l IH]; cbn [by_value_sig].
  - split.
    + intros H. injection H as <-. intros e [].
    + destruct b; [|reflexivity]. intros (x & e & y & a & r & H & _). destruct x; discriminate H.
  - destruct (String.eqb_spec (x_id e) SIG_EXT) as [E|N].
    + split.
      * intros H. bd H as a, A. apply dec_iff in A. destruct A as (r & A). destruct (a_by a) eqn:B.
        -- injection H as <-. exists [], e, l, a, r. split; [reflexivity|]. split; [exact E|]. split; [exact A|]. split; [exact B|]. intros ? [].
        -- apply IH in H. destruct b.
           ++ destruct H as (x & f & y & a' & r' & -> & H1 & H2 & H3 & H4). exists (e :: x), f, y, a', r'. split; [reflexivity|]. repeat split; auto.
              intros g [<-|I] Ig; [exists a, r; auto|apply H4; auto].
           ++ intros g [<-|I] Ig; [exists a, r; auto|apply H; auto].
      * intros H. destruct b.
        -- destruct H as (x & f & y & a & r & H & H1 & H2 & H3 & H4). destruct x as [|g x]; cbn [app] in H; injection H as -> ->.
           ++ assert (dec L (x_val f) = Ok a) as -> by (apply dec_iff; exists r; exact H2). cbn [bind]. rewrite H3. reflexivity.
           ++ destruct (H4 g (or_introl eq_refl) E) as (a' & r' & D & B). assert (dec L (x_val g) = Ok a') as -> by (apply dec_iff; exists r'; exact D). cbn [bind]. rewrite B.
              apply IH. exists x, f, y, a, r. repeat split; auto. intros z I. apply H4. right. exact I.
        -- destruct (H e (or_introl eq_refl) E) as (a' & r' & D & B). assert (dec L (x_val e) = Ok a') as -> by (apply dec_iff; exists r'; exact D). cbn [bind]. rewrite B.
           apply IH. intros z I. apply H. right. exact I.
    + rewrite IH. destruct b.
      * split.
        -- intros (x & f & y & a & r & -> & H1 & H2 & H3 & H4). exists (e :: x), f, y, a, r. split; [reflexivity|]. repeat split; auto. intros g [<-|I] Ig; [contradiction|apply H4; auto].
        -- intros (x & f & y & a & r & H & H1 & H2 & H3 & H4). destruct x as [|g x]; cbn [app] in H; injection H as -> ->; [contradiction|].
           exists x, f, y, a, r. repeat split; auto. intros z I. apply H4. right. exact I.
      * split; intros H g I; [destruct I as [<-|I]; [intros Q; contradiction|apply H, I]|apply H; right; exact I].
Qed.
Lemma find_iff L cs c : find_form L cs = Ok (Some c) <-> exists p q, cs = p ++ c :: q /\ (forall x, In x p -> sig_by_reference L x) /\ sig_by_value L c.
Proof.
  induction cs as [|d cs IH]; cbn [find_form].
  - split; [discriminate|]. intros (p & q & H & _). destruct p; discriminate H.
  - split.
    + intros H. bd H as b, B. destruct b.
      * injection H as <-. apply by_value_iff in B. exists [], cs. split; [reflexivity|]. split; [intros ? []|exact B].
      * apply by_value_iff in B. apply IH in H. destruct H as (p & q & -> & H1 & H2). exists (d :: p), q. split; [reflexivity|]. split; [|exact H2]. intros x [<-|I]; [exact B|apply H1, I].
    + intros (p & q & H & H1 & H2). destruct p as [|d' p]; cbn [app] in H; injection H as -> ->.
      * apply (by_value_iff L _ true) in H2. unfold exts in H2. rewrite H2. reflexivity.
      * pose proof (proj2 (by_value_iff L _ false) (H1 d' (or_introl eq_refl))) as E. unfold exts in E. rewrite E. cbn [bind]. apply IH. exists p, q. split; [reflexivity|]. split; [|exact H2].
        intros x I. apply H1. right. exact I.
Qed.
Lemma opt_eqb_iff A (f : A -> A -> bool) a b : (forall x y, f x y = true <-> x = y) -> (opt_eqb f a b = true <-> a = b).
Proof. intros F. destruct a, b; cbn; try rewrite F; split; congruence. Qed.
Lemma list_eqb_iff A (f : A -> A -> bool) a b : (forall x y, f x y = true <-> x = y) -> (list_eqb f a b = true <-> a = b).
Proof.
  intros F. revert b. induction a as [|x a IH]; intros [|y b]; cbn; try (split; congruence). rewrite andb_true_iff, F, IH. split; [intros [-> ->]; reflexivity|]. intros H. injection H. auto.
Qed.
Lemma alg_eqb_iff a b : alg_eqb a b = true <-> a = b.
Proof.
  unfold alg_eqb. rewrite andb_true_iff, String.eqb_eq, (opt_eqb_iff _ _ _ _ bytes_eqb_iff). destruct a, b. cbn. split; [intros [-> ->]; reflexivity|]. intros H. injection H. auto.
Qed.
Lemma ext_eqb_iff a b : ext_eqb a b = true <-> a = b.
Proof.
  unfold ext_eqb. rewrite !andb_true_iff, String.eqb_eq, Bool.eqb_true_iff, bytes_eqb_iff. destruct a, b. cbn. split; [intros [[-> ->] ->]; reflexivity|]. intros H. injection H. auto.
Qed.
Lemma cert_eqb_iff a b : cert_eqb a b = true <-> a = b.
Proof.
  unfold cert_eqb. rewrite !andb_true_iff, !bytes_eqb_iff, alg_eqb_iff, !(opt_eqb_iff _ _ _ _ alg_eqb_iff).
  rewrite (opt_eqb_iff _ _ _ _ (fun x y => list_eqb_iff _ _ x y ext_eqb_iff)). destruct a as [[r g [ka kb] x] ca cs], b as [[r' g' [ka' kb'] x'] ca' cs']. cbn.
  split; [intros [[[[[[-> ->] ->] ->] ->] ->] ->]; reflexivity|]. intros H. injection H. intros. subst. repeat split.
Qed.
Lemma contains_form_iff L c4 cs c : contains_form L c4 cs = Ok c <->
  (exists p q, cs = p ++ c :: q /\ (forall x, In x p -> sig_by_reference L x) /\ sig_by_value L c) /\ convert L c "Form4" = Ok c4.
Proof.
  rewrite <- find_iff. unfold contains_form. split.
  - intros H. bd H as o, O. destruct o as [d|]; [|discriminate H]. bd H as x, X. bd H as [], G. injection H as <-. apply cert_eqb_iff in G. split; [exact O|congruence].
  - intros [-> X]. cbn [bind]. rewrite X. cbn [bind]. assert (cert_eqb c4 c4 = true) as -> by (apply cert_eqb_iff; reflexivity). reflexivity.
Qed.
Lemma contains_one_iff L l o : contains_one L l o = Ok tt <-> exists e a, first_is l o e /\ x_crit e = false /\ l_altdec L (x_val e) = Some (a, []).
Proof.
  unfold contains_one. split.
  - intros H. bd H as x, X. destruct x as [e|]; [|discriminate H]. apply non_critical_iff in X. destruct X as [F C]. exists e.
    destruct (l_altdec L (x_val e)) as [[a [|]]|]; try discriminate H. exists a. auto.
  - intros (e & a & F & C & D). assert (get_non_critical l o = Ok (Some e)) as -> by (apply non_critical_iff; auto). cbn [bind]. rewrite D. reflexivity.
Qed.
Lemma contains_iff L c : contains_extensions L c = Ok tt <->
  (exists e a, first_is (exts c) KEY_EXT e /\ x_crit e = false /\ l_altdec L (x_val e) = Some (a, []))
  /\ (exists e a, first_is (exts c) SIG_EXT e /\ x_crit e = false /\ l_altdec L (x_val e) = Some (a, [])).
Proof.
  rewrite <- !contains_one_iff. unfold contains_extensions, exts. split.
  - intros H. bd H as [], K. auto.
  - intros [-> H]. cbn [bind]. exact H.
Qed.

(** ** Verifying *)
Lemma alg_cmp_iff a b : alg_cmp a b = Ok true <-> a = b.
Proof.
  unfold alg_cmp. destruct a as [o p], b as [o' p']. cbn [g_oid g_par]. destruct (String.eqb_spec o o') as [->|N]; [|split; [discriminate|congruence]].
  destruct p, p'; split; try discriminate; try congruence.
  - intros H. injection H as H. apply bytes_eqb_iff in H. congruence.
  - intros H. injection H as ->. f_equal. now apply bytes_eqb_iff.
Qed.
Lemma digest_named L h d v : digest L h d v <-> exists n, named h = Some n /\ compute_hash L n d = Ok v.
Proof.
  unfold digest. split.
  - intros (n & m & -> & N & M & ->). exists n. split; [apply named_some; auto|]. apply compute_iff. exists m. auto.
  - intros (n & N & C). apply named_some in N. destruct N as [-> N]. apply compute_iff in C. destruct C as (m & M & ->). exists n, m. auto.
Qed.
Lemma validate_key_iff L c k : validate_key L c = Ok k <-> key_valid L c k.
Proof.
  unfold validate_key, key_valid, first_alt. split.
  - destruct (get_extension (exts_of (t_exts (c_tbs c))) KEY_EXT) as [e|] eqn:G; [|discriminate]. apply get_extension_some in G. intros H. bd H as a, A. apply dec_iff in A. destruct A as (r & A).
    bd H as [], C. bd H as [], B. destruct (a_loc a) as [loc|] eqn:Lo; [|discriminate H]. bd H as f, Ff. bd H as k', K. bd H as h, Hh. apply hash_of_iff in Hh.
    destruct (named h) as [n|] eqn:N; [|discriminate H]. bd H as d, D. bd H as [], Q. apply bytes_eqb_iff in Q. subst d. apply process_iff in K. destruct K as (b & -> & s & K1 & K2). rewrite K1 in H.
    bd H as same, Sm. bd H as [], Q. subst same. apply alg_cmp_iff in Sm. assert (k' = k) by congruence. subst k'. apply fetch_some in Ff. destruct Ff as [F1 F2].
    exists a, b, h, s. split; [exists e, r; split; [exact G|]; split; [now destruct (x_crit e)|exact A]|]. split; [now destruct (a_by a)|]. split; [exists loc; auto|].
    split; [exact K1|]. split; [exact K2|]. split; [exact Hh|]. split; [|exact Sm]. apply digest_named. exists n. auto.
  - intros (a & b & h & s & (e & r & F & C & A) & B & Lo & K1 & K2 & Hh & D & Al). destruct Lo as (loc & Lo & Nl & Gl).
    apply get_extension_some in F. unfold exts in F. rewrite F. assert (dec L (x_val e) = Ok a) as -> by (apply dec_iff; exists r; exact A). cbn [bind]. rewrite C, B, Lo. cbn [negb guard bind].
    assert (fetch L loc = Ok (Some b)) as -> by (apply fetch_some; auto). cbn [bind]. assert (process_key L (Some b) = Ok k) as -> by (apply process_iff; exists b; split; [reflexivity|exists s; auto]).
    cbn [bind]. apply hash_of_iff in Hh. rewrite Hh. cbn [bind]. apply digest_named in D. destruct D as (n & -> & D). rewrite D. cbn [bind].
    assert (bytes_eqb (a_val a) (a_val a) = true) as -> by (apply bytes_eqb_iff; reflexivity). cbn [guard bind]. rewrite K1. assert (alg_cmp (k_alg s) (a_alg a) = Ok true) as -> by (apply alg_cmp_iff; exact Al).
    cbn [bind guard]. exact K2.
Qed.
Lemma split_iff L l : forall a new a' new', split_sig L l a new = Ok (a', new') <->
  all_decoded L l SIG_EXT /\ (forall e, In e l -> x_id e = SIG_EXT -> x_crit e = false) /\ new' = new ++ without SIG_EXT l
  /\ ((exists x, last_alt L l SIG_EXT x /\ a' = Some x) \/ (~ occurs SIG_EXT l /\ a' = a)).
Proof.
  induction l as [|e l IH]; intros a new a' new'; cbn [split_sig].
  - split.
    + intros H. injection H as -> ->. split; [intros ? []|]. split; [intros ? []|]. split; [cbn; now rewrite app_nil_r|]. right. split; [apply occurs_nil|reflexivity].
    + intros (_ & _ & -> & [(x & (f & r & (p & q & H & _) & _) & _)|[_ ->]]); [destruct p; discriminate H|]. cbn. now rewrite app_nil_r.
  - rewrite without_cons. destruct (string_dec (x_id e) SIG_EXT) as [E|N].
    + pose proof E as E'. apply String.eqb_eq in E'. rewrite E'. split.
      * intros H. bd H as x, X. apply dec_iff in X. destruct X as (r & X). bd H as [], C. apply IH in H. destruct H as (H1 & H2 & H3 & H4).
        split; [intros f [<-|I] If; [exists x, r; exact X|apply H1; auto]|]. split; [intros f [<-|I] If; [now destruct (x_crit e)|apply H2; auto]|]. split; [exact H3|]. left.
        destruct H4 as [(y & (f & r' & (p & q & -> & If & Nq) & D) & ->)|[H4 ->]].
        -- exists y. split; [|reflexivity]. exists f, r'. split; [exists (e :: p), q; auto|exact D].
        -- exists x. split; [|reflexivity]. exists e, r. split; [exists [], l; auto|exact X].
      * intros (H1 & H2 & H3 & H4). destruct (H1 e (or_introl eq_refl) E) as (x & r & X). assert (dec L (x_val e) = Ok x) as -> by (apply dec_iff; exists r; exact X). cbn [bind].
        rewrite (H2 e (or_introl eq_refl) E). cbn [negb guard bind]. apply IH. split; [intros f I; apply H1; right; exact I|]. split; [intros f I; apply H2; right; exact I|]. split; [exact H3|].
        destruct H4 as [(y & (f & r' & (p & q & H & If & Nq) & D) & ->)|[H4 _]]; [|destruct H4; apply occurs_cons; auto].
        destruct p as [|g p]; cbn [app] in H; injection H as -> ->.
        -- right. split; [exact Nq|]. congruence.
        -- left. exists y. split; [|reflexivity]. exists f, r'. split; [exists p, q; auto|exact D].
    + pose proof N as N'. apply String.eqb_neq in N'. rewrite N'. rewrite IH, <- app_assoc. cbn [app]. split.
      * intros (H1 & H2 & H3 & H4). split; [intros f [<-|I] If; [contradiction|apply H1; auto]|]. split; [intros f [<-|I] If; [contradiction|apply H2; auto]|]. split; [exact H3|].
        destruct H4 as [(y & (f & r' & (p & q & -> & If & Nq) & D) & ->)|[H4 ->]]; [left|right].
        -- exists y. split; [|reflexivity]. exists f, r'. split; [exists (e :: p), q; auto|exact D].
        -- split; [|reflexivity]. rewrite occurs_cons. tauto.
      * intros (H1 & H2 & H3 & H4). split; [intros f I; apply H1; right; exact I|]. split; [intros f I; apply H2; right; exact I|]. split; [exact H3|].
        destruct H4 as [(y & (f & r' & (p & q & H & If & Nq) & D) & ->)|[H4 ->]].
        -- destruct p as [|g p]; cbn [app] in H; injection H as -> ->; [contradiction|]. left. exists y. split; [|reflexivity]. exists f, r'. split; [exists p, q; auto|exact D].
        -- right. split; [|reflexivity]. rewrite occurs_cons in H4. tauto.
Qed.
Lemma unsigned_eq c : set_tbs c (set_texts (c_tbs c) (some_exts (without SIG_EXT (exts c)))) = unsigned c.
Proof. unfold unsigned, some_exts, set_tbs, set_texts. destruct (without SIG_EXT (exts c)); reflexivity. Qed.
Lemma validate_sig_iff L c k given : fst (validate_sig L c k given) = Ok tt <-> sig_valid L c k given.
Proof.
  unfold validate_sig, sig_valid. change (exts_of (t_exts (c_tbs c))) with (exts c). split.
  - destruct (split_sig L (exts c) None []) as [[[a|] new]|] eqn:S; [|discriminate..]. apply split_iff in S. destruct S as (H1 & H2 & H3 & H4). cbn [app] in H3. subst new. rewrite unsigned_eq.
    destruct H4 as [(x & H4 & Q)|[_ Q]]; [|discriminate Q]. injection Q as <-. cbn [fst]. intros H. bd H as s, Ss. bd H as h, Hh. apply hash_of_iff in Hh. destruct (named h) as [n|] eqn:N; [|discriminate H].
    destruct s as [s|]; [|discriminate H]. bd H as d, D. bd H as [], Q. apply bytes_eqb_iff in Q. split; [exact H1|]. split; [exact H2|]. exists a, s, h. split; [exact H4|].
    split; [|split; [exact Hh|split; [apply digest_named; exists n; split; [exact N|congruence]|exact H]]].
    destruct given as [g|]; [left; congruence|]. right. split; [reflexivity|]. destruct (a_loc a) as [loc|]; [|discriminate Ss]. apply fetch_some in Ss. exists loc. tauto.
  - intros (H1 & H2 & a & s & h & H4 & G & Hh & D & V).
    assert (split_sig L (exts c) None [] = Ok (Some a, without SIG_EXT (exts c))) as ->.
    { apply split_iff. split; [exact H1|]. split; [exact H2|]. split; [reflexivity|]. left. exists a. auto. }
    rewrite unsigned_eq. cbn [fst].
    assert (match given with Some s0 => Ok (Some s0) | None => match a_loc a with Some loc => fetch L loc | None => Ok None end end = Ok (Some s)) as ->.
    { destruct G as [->|[-> (loc & -> & Nl & Gl)]]; [reflexivity|]. apply fetch_some. auto. }
    cbn [bind]. apply hash_of_iff in Hh. rewrite Hh. cbn [bind]. apply digest_named in D. destruct D as (n & -> & D). rewrite D. cbn [bind].
    assert (bytes_eqb (a_val a) (a_val a) = true) as -> by (apply bytes_eqb_iff; reflexivity). cbn [guard bind]. exact V.
Qed.
(** The certificate is left without its signature extensions, unless one of them cannot be read or none is there. *)
Lemma validate_sig_left L c k given : snd (validate_sig L c k given) = unsigned c \/ (snd (validate_sig L c k given) = c /\ fst (validate_sig L c k given) <> Ok tt).
Proof.
  unfold validate_sig. change (exts_of (t_exts (c_tbs c))) with (exts c).
  destruct (split_sig L (exts c) None []) as [[[a|] new]|] eqn:S; [|right; cbn; split; [reflexivity|discriminate]..]. left. apply split_iff in S. destruct S as (_ & _ & H3 & _). cbn [app] in H3. subst new. rewrite unsigned_eq. reflexivity.
Qed.
Lemma validate_sig_once L c k given k' given' : fst (validate_sig L c k given) = Ok tt ->
  snd (validate_sig L c k given) = unsigned c /\ fst (validate_sig L (snd (validate_sig L c k given)) k' given') = Err EValueError.
Proof.
  intros H. destruct (validate_sig_left L c k given) as [E|[_ N]]; [|contradiction]. split; [exact E|]. rewrite E. unfold validate_sig.
  change (exts_of (t_exts (c_tbs (unsigned c)))) with (exts (unsigned c)).
  assert (exts (unsigned c) = without SIG_EXT (exts c)) as -> by (unfold exts at 1, unsigned; cbn [c_tbs t_exts]; destruct (without SIG_EXT (exts c)); reflexivity).
  assert (split_sig L (without SIG_EXT (exts c)) None [] = Ok (None, without SIG_EXT (without SIG_EXT (exts c)))) as ->; [|reflexivity].
  apply split_iff. split; [intros e I E1; destruct (without_none SIG_EXT (exts c)); exists e; auto|]. split; [intros e I E1; destruct (without_none SIG_EXT (exts c)); exists e; auto|].
  split; [reflexivity|]. right. split; [apply without_none|reflexivity].
Qed.
Lemma verify_trad_iff L c issuer : verify_trad L c issuer = Ok tt <-> exists c4, convert L c "Form4" = Ok c4 /\ signed_by L c4 issuer.
Proof.
  unfold verify_trad, signed_by. split.
  - intros H. bd H as c4, C. bd H as k, K. bd H as k', E. apply ensure_iff in E. destruct E as [V ->]. destruct (t_alg (c_tbs c4)) as [a|] eqn:A; [|discriminate H].
    exists c4. split; [exact C|]. exists k, a. auto.
  - intros (c4 & -> & k & a & K & V & A & H). cbn [bind]. rewrite K. cbn [bind]. assert (ensure_verify (l_cat L) k = Ok k) as -> by (apply ensure_iff; auto). cbn [bind]. rewrite A. exact H.
Qed.

(** ** The alternative key *)
Lemma alt_pub_key_iff L c k : alt_pub_key L (exts c) = Ok (Some k) <-> sun_key L c k.
Proof.
  unfold alt_pub_key, sun_key. split.
  - destruct (get_extension (exts c) KEY_EXT) as [e|] eqn:G; [|discriminate]. apply get_extension_some in G. intros H. bd H as a, A. apply dec_iff in A. destruct A as (r & A). exists e, a, r.
    destruct (a_by a).
    + destruct (l_spkidec (l_cat L) (a_val a)) as [[s [|]]|] eqn:D; try discriminate H. bd H as k', K. injection H as ->. exists (a_val a). split; [exact G|]. split; [exact A|]. split; [exists s; auto|reflexivity].
    + destruct (a_loc a) as [loc|] eqn:Lo; [|discriminate H]. bd H as f, Ff. destruct f as [b|]; [|discriminate H]. destruct (l_spkidec (l_cat L) b) as [[s rest]|] eqn:D; [|discriminate H].
      bd H as [], Q. destruct rest; [|discriminate Q]. bd H as k', K. injection H as ->. exists b. split; [exact G|]. split; [exact A|]. split; [exists s; auto|]. apply fetch_some in Ff. exists loc. tauto.
  - intros (e & a & r & b & F & A & (s & D & K) & B). apply get_extension_some in F. rewrite F. assert (dec L (x_val e) = Ok a) as -> by (apply dec_iff; exists r; exact A). cbn [bind]. destruct (a_by a).
    + subst b. rewrite D, K. reflexivity.
    + destruct B as (loc & -> & Nl & Gl). assert (fetch L loc = Ok (Some b)) as -> by (apply fetch_some; auto). cbn [bind]. rewrite D. cbn [guard bind]. rewrite K. reflexivity.
Qed.
Definition get_descriptor (L : lib) (c : cert) : result (option bytes) :=
  match get_extension (exts c) SIA with
  | None => Ok None
  | Some e => match l_descriptor L e with Ok d => Ok (Some d) | Err EValueError => Ok None | Err x => Err x end
  end.
Lemma descriptor_iff L c d : get_descriptor L c = Ok d <-> discovery L c d.
Proof.
  unfold get_descriptor, discovery. destruct (get_extension (exts c) SIA) as [e|] eqn:G.
  - apply get_extension_some in G. split.
    + intros H. right. exists e. split; [exact G|]. destruct (l_descriptor L e) as [x|x]; [left; exists x; split; congruence|]. right. destruct x; try discriminate H. split; [reflexivity|congruence].
    + intros [[N _]|(f & F & H)]; [destruct N; destruct G as (p & q & -> & I & _); apply occurs_app; right; apply occurs_cons; auto|].
      pose proof (first_fun _ _ _ _ G F) as <-. destruct H as [(x & -> & ->)|[-> ->]]; reflexivity.
  - apply get_extension_none in G. split; [intros H; left; split; [exact G|congruence]|]. intros [[_ ->]|(f & F & _)]; [reflexivity|]. destruct G. destruct F as (p & q & -> & I & _). apply occurs_app. right. apply occurs_cons. auto.
Qed.
Lemma get_occurs l o : (exists e, get_extension l o = Some e) <-> occurs o l.
Proof.
  split.
  - intros (e & G). apply get_extension_some in G. destruct G as (p & q & -> & I & _). apply occurs_app. right. apply occurs_cons. auto.
  - intros H. destruct (get_extension l o) as [e|] eqn:G; [exists e; reflexivity|]. apply get_extension_none in G. contradiction.
Qed.
Lemma first_occurs l o e : first_is l o e -> occurs o l.
Proof. intros F. apply get_occurs. exists e. apply get_extension_some, F. Qed.
Lemma no_get l o : ~ occurs o l -> get_extension l o = None. Proof. apply get_extension_none. Qed.
Lemma composite_iff c : has (g_oid (k_alg (t_spki (c_tbs c)))) COMPOSITE_SIG_OID_TO_NAME = true <-> composite_key c.
Proof. apply has_In. Qed.
Lemma extract_eq L c others : extract_alt_key L c others =
  (let some (r : result pub) : result (option pub) := let! k := r in Ok (Some k) in
   let! d := get_descriptor L c in
   match get_extension (exts c) KEY_EXT with
   | Some _ => let! k := alt_pub_key L (exts c) in match k with Some k => Ok (Some k) | None => Err EValueError end
   | None =>
      match get_extension (exts c) RELATED, others with
      | Some _, Some cs => let! x := l_related L cs c in some (l_load (l_cat L) (t_spki (c_tbs x)))
      | _, _ =>
          match get_extension (exts c) ALT_SPKI with
          | Some e => let! k := load_catalyst_key (l_cat L) [e] in let! _ := guard (l_pqverify L k) EValueError in Ok (Some k)
          | None =>
              match d with
              | Some d => let! x := l_discover L d in some (l_load (l_cat L) (t_spki (c_tbs x)))
              | None =>
                  match get_extension (exts c) DELTA with
                  | Some _ => let! s := l_delta L c in some (l_load (l_cat L) s)
                  | None =>
                      if has (g_oid (k_alg (t_spki (c_tbs c)))) COMPOSITE_SIG_OID_TO_NAME then
                        let! k := l_load (l_cat L) (t_spki (c_tbs c)) in
                        match l_parts L k with Some (_, q) => Ok (Some q) | None => Err EAttribute end
                      else Ok None
                  end
              end
          end
      end
   end).
Proof. reflexivity. Qed.
Lemma some_inv A (r : result A) k : (let! x := r in Ok (Some x)) = Ok (Some k) <-> r = Ok k.
Proof. destruct r as [y|]; cbn; split; congruence. Qed.
Lemma catalyst_one L e k : x_id e = ALT_SPKI -> (load_catalyst_key L [e] = Ok k <-> exists s, l_spkidec L (x_val e) = Some (s, []) /\ l_load L s = Ok k).
Proof.
  intros E. unfold load_catalyst_key. assert (get_extension [e] ALT_SPKI = Some e) as -> by (apply get_extension_some; exists [], []; split; [reflexivity|]; split; [exact E|apply occurs_nil]).
  destruct (l_spkidec L (x_val e)) as [[s r]|]; split.
  - intros H. bd H as [], Q. destruct r; [|discriminate Q]. exists s. auto.
  - intros (s' & Q & H). injection Q as <- ->. exact H.
  - discriminate.
  - intros (s' & Q & _). discriminate Q.
Qed.
Lemma related_off c (others : option (list cert)) A (x : cert -> list cert -> A) (y : A) : ~ occurs RELATED (exts c) \/ others = None ->
  match get_extension (exts c) RELATED, others with Some _, Some cs => x c cs | _, _ => y end = y.
Proof. intros [N| ->]; [rewrite (no_get _ _ N); reflexivity|]. destruct (get_extension (exts c) RELATED); reflexivity. Qed.
Lemma related_case c (others : option (list cert)) : (exists cs, occurs RELATED (exts c) /\ others = Some cs) \/ (~ occurs RELATED (exts c) \/ others = None).
Proof.
  destruct others as [cs|]; [|auto]. destruct (get_extension (exts c) RELATED) as [e|] eqn:G.
  - left. exists cs. split; [apply get_occurs; exists e; exact G|reflexivity].
  - right. left. apply get_extension_none, G.
Qed.
Lemma extract_some L c others k : extract_alt_key L c others = Ok (Some k) <-> alt_key_of L c others k.
Proof.
  rewrite extract_eq. cbv zeta. split.
  - intros H. bd H as d, D. apply descriptor_iff in D.
    destruct (get_extension (exts c) KEY_EXT) as [e|] eqn:G1.
    { bd H as k', K. destruct k' as [k'|]; [|discriminate H]. injection H as ->. apply alt_pub_key_iff in K. exact (AK_sun _ _ _ _ d D K). }
    apply get_extension_none in G1. destruct (related_case c others) as [(cs & R & Eo)|R].
    { pose proof (proj2 (get_occurs _ _) R) as (e & G2). rewrite G2, Eo in H. bd H as x, X. apply (proj1 (some_inv _ _ _)) in H. exact (AK_related _ _ _ _ d cs x D G1 R Eo X H). }
    rewrite (related_off c others _ (fun c cs => let! x := l_related L cs c in let! k0 := l_load (l_cat L) (t_spki (c_tbs x)) in Ok (Some k0))) in H by exact R.
    destruct (get_extension (exts c) ALT_SPKI) as [e|] eqn:G3.
    { pose proof (proj1 (get_extension_some _ _ _) G3) as F. bd H as k', K. bd H as [], Q. injection H as ->. assert (x_id e = ALT_SPKI) as E by (destruct F as (? & ? & _ & I & _); exact I).
      apply (catalyst_one _ _ _ E) in K. destruct K as (s & K1 & K2). exact (AK_catalyst _ _ _ _ d e s D G1 R F K1 K2 Q). }
    apply get_extension_none in G3. destruct d as [d|].
    { bd H as x, X. apply (proj1 (some_inv _ _ _)) in H. exact (AK_discovery _ _ _ _ d x D G1 R G3 X H). }
    destruct (get_extension (exts c) DELTA) as [e|] eqn:G4.
    { bd H as s, Ss. apply (proj1 (some_inv _ _ _)) in H. exact (AK_paired _ _ _ _ s D G1 R G3 (proj1 (get_occurs _ _) (ex_intro _ e G4)) Ss H). }
    apply get_extension_none in G4. destruct (has _ _) eqn:Hc; [|discriminate H]. apply composite_iff in Hc. bd H as x, X. destruct (l_parts L x) as [[t q]|] eqn:P; [|discriminate H].
    injection H as ->. exact (AK_composite _ _ _ _ x t D G1 R G3 G4 Hc X P).
  - intros [d D K | d cs x D N R Eo X K | d e s D N R F S1 S2 V | d x D N R N2 X K | s D N R N2 O Ss K | x t D N R N2 N3 C K P]; apply descriptor_iff in D; rewrite D; cbn [bind].
    + pose proof K as (e & _ & _ & _ & F & _). apply get_extension_some in F. rewrite F. apply alt_pub_key_iff in K. rewrite K. reflexivity.
    + rewrite (no_get _ _ N). apply get_occurs in R. destruct R as (e & ->). rewrite Eo. rewrite X. cbn [bind]. apply (proj2 (some_inv _ _ _)). exact K.
    + rewrite (no_get _ _ N). rewrite (related_off c others _ (fun c cs => let! x := l_related L cs c in let! k0 := l_load (l_cat L) (t_spki (c_tbs x)) in Ok (Some k0))) by exact R.
      assert (x_id e = ALT_SPKI) as E by (destruct F as (? & ? & _ & I & _); exact I). apply get_extension_some in F. rewrite F.
      assert (load_catalyst_key (l_cat L) [e] = Ok k) as -> by (apply catalyst_one; [exact E|exists s; auto]). cbn [bind]. rewrite V. reflexivity.
    + rewrite (no_get _ _ N). rewrite (related_off c others _ (fun c cs => let! x := l_related L cs c in let! k0 := l_load (l_cat L) (t_spki (c_tbs x)) in Ok (Some k0))) by exact R.
      rewrite (no_get _ _ N2). rewrite X. cbn [bind]. apply (proj2 (some_inv _ _ _)). exact K.
    + rewrite (no_get _ _ N). rewrite (related_off c others _ (fun c cs => let! x := l_related L cs c in let! k0 := l_load (l_cat L) (t_spki (c_tbs x)) in Ok (Some k0))) by exact R.
      rewrite (no_get _ _ N2). apply get_occurs in O. destruct O as (e & ->). rewrite Ss. cbn [bind]. apply (proj2 (some_inv _ _ _)). exact K.
    + rewrite (no_get _ _ N). rewrite (related_off c others _ (fun c cs => let! x := l_related L cs c in let! k0 := l_load (l_cat L) (t_spki (c_tbs x)) in Ok (Some k0))) by exact R.
      rewrite (no_get _ _ N2), (no_get _ _ N3). apply composite_iff in C. rewrite C. rewrite K. cbn [bind]. rewrite P. reflexivity.
Qed.
Lemma some_not_none A (r : result A) : (let! x := r in Ok (Some x)) <> Ok None.
Proof. destruct r; cbn; discriminate. Qed.
Lemma extract_none L c others : extract_alt_key L c others = Ok None <->
  discovery L c None /\ ~ occurs KEY_EXT (exts c) /\ (~ occurs RELATED (exts c) \/ others = None) /\ ~ occurs ALT_SPKI (exts c) /\ ~ occurs DELTA (exts c) /\ ~ composite_key c.
Proof.
  rewrite extract_eq. cbv zeta. split.
  - intros H. bd H as d, D. apply descriptor_iff in D.
    destruct (get_extension (exts c) KEY_EXT) as [e|] eqn:G1; [bd H as k', K; destruct k'; discriminate H|].
    apply get_extension_none in G1. destruct (related_case c others) as [(cs & R & Eo)|R].
    { pose proof (proj2 (get_occurs _ _) R) as (e & G2). rewrite G2, Eo in H. bd H as x, X. apply some_not_none in H. destruct H. }
    rewrite (related_off c others _ (fun c cs => let! x := l_related L cs c in let! k0 := l_load (l_cat L) (t_spki (c_tbs x)) in Ok (Some k0))) in H by exact R.
    destruct (get_extension (exts c) ALT_SPKI) as [e|] eqn:G3; [bd H as k', K; bd H as [], Q; discriminate H|].
    apply get_extension_none in G3. destruct d as [d|]; [bd H as x, X; apply some_not_none in H; destruct H|].
    destruct (get_extension (exts c) DELTA) as [e|] eqn:G4; [bd H as s, Ss; apply some_not_none in H; destruct H|].
    apply get_extension_none in G4. destruct (has _ _) eqn:Hc; [bd H as x, X; destruct (l_parts L x) as [[]|]; discriminate H|].
    repeat split; auto. intros Q. apply composite_iff in Q. congruence.
  - intros (D & N & R & N2 & N3 & C). apply descriptor_iff in D. rewrite D. cbn [bind]. rewrite (no_get _ _ N).
    rewrite (related_off c others _ (fun c cs => let! x := l_related L cs c in let! k0 := l_load (l_cat L) (t_spki (c_tbs x)) in Ok (Some k0))) by exact R.
    rewrite (no_get _ _ N2), (no_get _ _ N3). destruct (has _ _) eqn:Hc; [|reflexivity]. apply composite_iff in Hc. contradiction.
Qed.
Lemma verify_sun_iff L c issuer alt_key check others : verify_sun L c issuer alt_key check others = Ok tt <->
  exists c4 k q, convert L c "Form4" = Ok c4 /\ signed_by L c4 issuer
    /\ (alt_key = Some k \/ (alt_key = None /\ alt_key_of L issuer others k)) /\ key_valid L c4 q /\ (check = true -> sig_valid L c4 k None).
Proof.
  unfold verify_sun. split.
  - intros H. bd H as c4, C. bd H as [], V. apply verify_trad_iff in V. destruct V as (c4' & C' & V). assert (c4' = c4) as -> by congruence. bd H as k, K. bd H as q, Q. apply validate_key_iff in Q.
    exists c4, k, q. split; [exact C|]. split; [exact V|]. split; [|split; [exact Q|intros ->; apply validate_sig_iff; exact H]].
    destruct alt_key as [x|]; [left; congruence|]. right. split; [reflexivity|]. bd K as o, O. destruct o as [o|]; [|discriminate K]. injection K as ->. apply extract_some, O.
  - intros (c4 & k & q & C & V & K & Q & Sv). rewrite C. cbn [bind]. assert (verify_trad L c issuer = Ok tt) as -> by (apply verify_trad_iff; exists c4; auto). cbn [bind].
    assert (match alt_key with Some k0 => Ok k0 | None => let! o := extract_alt_key L issuer others in match o with Some k0 => Ok k0 | None => Err EValueError end end = Ok k) as ->.
    { destruct K as [->|[-> K]]; [reflexivity|]. apply extract_some in K. rewrite K. reflexivity. }
    cbn [bind]. apply validate_key_iff in Q. rewrite Q. cbn [bind]. destruct check; [|reflexivity]. apply validate_sig_iff. auto.
Qed.
