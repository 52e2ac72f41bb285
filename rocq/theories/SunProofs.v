(** Proofs about the extensions and forms of Sun hybrid certificates. *)
From Coq Require Import String Ascii.
From Verif Require Import Prelude PreludeFacts ProtTab HdrModel ProtMac ChamProofs CatModel CatSpec CatProofs SunModel SunSpec.
Open Scope string_scope.
Open Scope Z_scope.
Open Scope list_scope.

Lemma named_some h n : named h = Some n <-> h = Some n /\ n <> "".
Proof.
  unfold named. destruct h as [x|]; [|split; [discriminate|intros [H _]; discriminate H]].
  destruct (String.eqb_spec x "") as [->|N]; split.
  - discriminate.
  - intros [H1 H2]. congruence.
  - intros H. split; congruence.
  - intros [H _]. exact H.
Qed.
Lemma named_none h : named h = None <-> no_name h.
Proof.
  unfold named, no_name. destruct h as [x|]; [|split; auto]. destruct (String.eqb_spec x "") as [->|N]; split; auto; try discriminate.
  intros [H|H]; [discriminate H|congruence].
Qed.
Lemma compute_iff L n d v : compute_hash L n d = Ok v <-> exists m, hash_name_to_instance n = Ok m /\ v = l_hash L m d.
Proof.
  unfold compute_hash. split.
  - intros H. bd H as m, M. injection H as <-. exists m. split; [exact M|reflexivity].
  - intros (m & -> & ->). reflexivity.
Qed.
Lemma fetch_some L x b : fetch L x = Ok (Some b) <-> x <> "" /\ l_get L x = Ok b.
Proof.
  unfold fetch. destruct (String.eqb_spec x "") as [->|N]; split.
  - discriminate.
  - intros [H _]. now destruct H.
  - intros H. bd H as y, Y. split; [exact N|congruence].
  - intros [_ ->]. reflexivity.
Qed.
Lemma process_iff L o k : process_key L o = Ok k <-> exists b, o = Some b /\ key_from L b k.
Proof.
  unfold process_key, key_from. destruct o as [b|]; [|split; [discriminate|intros (b & H & _); discriminate H]]. split.
  - destruct (l_spkidec (l_cat L) b) as [[s r]|] eqn:D; [|discriminate]. intros H. bd H as [], G. destruct r; [|discriminate G].
    exists b. split; [reflexivity|]. exists s. split; [exact D|exact H].
  - intros (b' & E & s & D & H). injection E as <-. rewrite D. cbn [guard bind]. exact H.
Qed.
Lemma at_loc_iff L o b : (match o with None => Err EValueError | Some x => fetch L x end) = Ok (Some b) <-> at_loc L o b.
Proof.
  unfold at_loc. destruct o as [x|].
  - rewrite fetch_some. split; [intros [H1 H2]; exists x; auto|]. intros (y & E & H). injection E as <-. exact H.
  - split; [discriminate|]. intros (y & E & _). discriminate E.
Qed.
Lemma dec_iff L b a : dec L b = Ok a <-> exists r, l_altdec L b = Some (a, r).
Proof.
  unfold dec. destruct (l_altdec L b) as [[x r]|]; split.
  - intros H. injection H as ->. exists r. reflexivity.
  - intros (r' & H). injection H as -> _. reflexivity.
  - discriminate.
  - intros (r' & H). discriminate H.
Qed.
Lemma hash_of_iff a h : hash_of a = Ok h <-> hash_in a h.
Proof.
  unfold hash_of, hash_in. destruct (a_hash a) as [x|]; split.
  - intros H. exists x. split; [reflexivity|exact H].
  - intros (y & E & H). injection E as <-. exact H.
  - discriminate.
  - intros (y & E & _). discriminate E.
Qed.
Lemma digest_iff L h d v : (match named h with None => Err EValueError | Some n => compute_hash L n d end) = Ok v <-> digest L h d v.
Proof.
  unfold digest. destruct (named h) as [n|] eqn:N; split.
  - intros H. apply named_some in N. destruct N as [-> N]. apply compute_iff in H. destruct H as (m & H1 & H2). exists n, m. auto.
  - intros (n' & m & -> & N' & H1 & H2). assert (n' = n) as -> by (assert (named (Some n') = Some n') as Q by (apply named_some; auto); congruence).
    apply compute_iff. exists m. auto.
  - discriminate.
  - intros (n' & m & -> & N' & _). assert (named (Some n') = Some n') as Q by (apply named_some; auto). congruence.
Qed.
Definition mk_ext (L : lib) (o : string) (crit : bool) (a : alt) : ext := {| x_id := o; x_crit := crit; x_val := l_altenc L a |}.
Lemma key_ext_iff L k v h loc crit e : key_ext L k v h loc crit = Ok e <-> exists a, key_value L k v h loc a /\ e = mk_ext L KEY_EXT crit a.
Proof.
  unfold key_ext, key_value. split.
  - destruct (l_spkidec (l_cat L) (l_der L k)) as [[s r]|] eqn:D; [|discriminate]. intros H. bd H as b, B. bd H as ha, A. injection H as <-.
    eexists. split; [|reflexivity]. cbn [a_by a_val a_alg a_hash a_loc]. split; [reflexivity|]. split; [exists s, r; split; reflexivity|]. split.
    + destruct v; [congruence|apply digest_iff, B].
    + split; [|reflexivity]. destruct (named h) as [n|] eqn:N.
      * bd A as o, O. injection A as <-. apply named_some in N. destruct N as [-> N]. right. exists n, o. auto.
      * injection A as <-. left. split; [apply named_none, N|reflexivity].
  - intros ([b x g ha l'] & (H1 & (s & r & D & H2) & H3 & H4 & H5) & ->). cbn [a_by a_val a_alg a_hash a_loc] in *. subst. rewrite D.
    assert ((if v then Ok (l_der L k) else match named h with None => Err EValueError | Some n => compute_hash L n (l_der L k) end) = Ok x) as ->
      by (destruct v; [congruence|apply digest_iff, H3]). cbn [bind].
    destruct H4 as [[N ->]|(n & o & -> & N & O & ->)].
    + apply named_none in N. rewrite N. reflexivity.
    + assert (named (Some n) = Some n) as -> by (apply named_some; auto). rewrite O. reflexivity.
Qed.
Lemma sig_ext_iff L s v g h loc crit e : sig_ext L s v g h loc crit = Ok e <-> exists a, sig_value L s g v h loc a /\ e = mk_ext L SIG_EXT crit a.
Proof.
  unfold sig_ext, sig_value. split.
  - intros H. bd H as [], G. bd H as b, B. bd H as ha, A. injection H as <-. eexists. split; [|reflexivity]. cbn [a_by a_val a_alg a_hash a_loc].
    split; [destruct s; [discriminate G|discriminate]|]. split; [reflexivity|]. split; [reflexivity|]. split; [destruct v; [congruence|apply digest_iff, B]|].
    split; [|reflexivity]. destruct h as [h|]; [|left; split; [reflexivity|congruence]]. destruct (named (Some h)) as [n|] eqn:N; [|discriminate A].
    apply named_some in N. destruct N as [E N]. injection E as ->. bd A as o, O. injection A as <-. right. exists n, o. auto.
  - intros ([b x g' ha l'] & (H0 & H1 & H2 & H3 & H4 & H5) & ->). cbn [a_by a_val a_alg a_hash a_loc] in *. subst.
    assert (match s with [] => false | _ => true end = true) as -> by (destruct s; [now destruct H0|reflexivity]). cbn [guard bind].
    assert ((if v then Ok s else match named h with None => Err EValueError | Some n => compute_hash L n s end) = Ok x) as ->
      by (destruct v; [congruence|apply digest_iff, H3]). cbn [bind].
    destruct H4 as [[-> ->]|(n & o & -> & N & O & ->)]; [reflexivity|].
    assert (named (Some n) = Some n) as -> by (apply named_some; auto). rewrite O. reflexivity.
Qed.
Lemma patch_iff l e l' : patch l e = Ok l' <-> exists x y z, l = x ++ y :: z /\ x_id y = x_id e /\ ~ occurs (x_id e) x /\ l' = x ++ e :: z.
Proof.
  revert l'. induction l as [|a l IH]; intros l'; cbn [patch]; split.
  - discriminate.
  - intros (x & y & z & H & _). destruct x; discriminate H.
  - destruct (String.eqb_spec (x_id a) (x_id e)) as [E|N].
    + intros H. injection H as <-. exists [], a, l. split; [reflexivity|]. split; [exact E|]. split; [apply occurs_nil|reflexivity].
    + intros H. bd H as r, R. injection H as <-. apply IH in R. destruct R as (x & y & z & -> & H1 & H2 & ->).
      exists (a :: x), y, z. split; [reflexivity|]. split; [exact H1|]. split; [|reflexivity]. intros Q. apply occurs_cons in Q. destruct Q; contradiction.
  - intros (x & y & z & H & H1 & H2 & ->). destruct x as [|b x]; cbn [app] in H.
    + injection H as -> ->. rewrite H1, String.eqb_refl. reflexivity.
    + injection H as -> ->. assert (x_id b <> x_id e) as N by (intros Q; apply H2, occurs_cons; auto).
      apply String.eqb_neq in N. rewrite N. assert (patch (x ++ y :: z) e = Ok (x ++ e :: z)) as ->; [|reflexivity].
      apply IH. exists x, y, z. split; [reflexivity|]. split; [exact H1|]. split; [|reflexivity]. intros Q. apply H2, occurs_cons. auto.
Qed.
Lemma patch_cert_iff L c o a c' : patch_cert c (mk_ext L o false a) = Ok c' <-> with_alt L c o a c'.
Proof.
  unfold patch_cert, with_alt. split.
  - intros H. bd H as l, P. injection H as <-. apply patch_iff in P. destruct P as (x & y & z & H1 & H2 & H3 & ->). exists x, y, z.
    cbn [x_id mk_ext] in *. repeat split; assumption.
  - intros (x & y & z & H1 & H2 & H3 & H4 & H5 & H6 & H7 & H8 & H9).
    assert (patch (exts_of (t_exts (c_tbs c))) (mk_ext L o false a) = Ok (x ++ mk_ext L o false a :: z)) as -> by (apply patch_iff; exists x, y, z; auto).
    cbn [bind]. f_equal. destruct c' as [[rest al sp xs] ca cs]. cbn in *. subst. destruct c as [[rest al sp xs] ca cs]. reflexivity.
Qed.
Lemma non_critical_iff l o e : get_non_critical l o = Ok (Some e) <-> first_is l o e /\ x_crit e = false.
Proof.
  unfold get_non_critical. destruct (get_extension l o) as [x|] eqn:G; split.
  - intros H. bd H as [], C. injection H as <-. apply get_extension_some in G. split; [exact G|]. now destruct (x_crit x).
  - intros [H C]. apply get_extension_some in H. assert (x = e) as -> by congruence. rewrite C. reflexivity.
  - discriminate.
  - intros [H _]. apply get_extension_some in H. congruence.
Qed.
Lemma first_fun l o e e' : first_is l o e -> first_is l o e' -> e = e'.
Proof. intros H1 H2. apply get_extension_some in H1, H2. congruence. Qed.
Lemma bool_neq a b : Bool.eqb a b = false <-> b = negb a.
Proof. destruct a, b; cbn; split; congruence. Qed.
Lemma convert_key_iff L to_val c c' : convert_key L c to_val = Ok c' <-> key_converted L to_val c c'.
Proof.
  unfold convert_key, key_converted, first_alt. split.
  - intros H. bd H as o, O. destruct o as [e|]; [|discriminate H]. apply non_critical_iff in O. destruct O as [F C]. bd H as a, A. apply dec_iff in A. destruct A as (r & A).
    exists a. split; [exists e, r; auto|]. destruct (Bool.eqb to_val (a_by a)) eqn:B.
    + apply Bool.eqb_prop in B. left. split; [congruence|congruence].
    + apply bool_neq in B. right. split; [exact B|]. bd H as h, Hh. apply hash_of_iff in Hh. bd H as k, K. bd H as e', E. rewrite C in E.
      apply key_ext_iff in E. destruct E as (a' & E & ->). apply patch_cert_iff in H. destruct to_val.
      * assert (exists b, at_loc L (a_loc a) b /\ key_from L b k) as (b & K1 & K2).
        { destruct (a_loc a) as [x|] eqn:X; [|discriminate K]. bd K as f, Ff. apply process_iff in K. destruct K as (b & -> & K). exists b. split; [|exact K].
          apply fetch_some in Ff. exists x. tauto. }
        exists h, b, k, a'. auto.
      * destruct (named (a_loc a)) as [x|] eqn:X; [|discriminate K]. apply process_iff in K. destruct K as (b & Q & K). injection Q as <-.
        exists h, (a_val a), k, a'. split; [exact Hh|]. split; [exact K|]. split; [split; [|reflexivity]|auto].
        intros N. apply named_none in N. congruence.
  - intros (a & (e & r & F & C & A) & H). assert (get_non_critical (exts_of (t_exts (c_tbs c))) KEY_EXT = Ok (Some e)) as -> by (apply non_critical_iff; auto).
    cbn [bind]. assert (dec L (x_val e) = Ok a) as -> by (apply dec_iff; exists r; exact A). cbn [bind]. destruct H as [[H1 ->]|(H1 & h & b & k & a' & H2 & H3 & H4 & H5 & H6)].
    + rewrite H1, Bool.eqb_reflx. reflexivity.
    + assert (Bool.eqb to_val (a_by a) = false) as -> by (apply bool_neq; exact H1). apply hash_of_iff in H2. rewrite H2. cbn [bind].
      assert ((if to_val then match a_loc a with None => Err EValueError | Some loc => let! f := fetch L loc in process_key L f end
               else match named (a_loc a) with None => Err EValueError | Some _ => process_key L (Some (a_val a)) end) = Ok k) as ->.
      { destruct to_val.
        - destruct H4 as (x & -> & N & G). assert (fetch L x = Ok (Some b)) as -> by (apply fetch_some; auto). cbn [bind]. apply process_iff. exists b. auto.
        - destruct H4 as [N ->]. destruct (named (a_loc a)) as [x|] eqn:X; [|apply named_none in X; contradiction]. apply process_iff. exists (a_val a). auto. }
      cbn [bind]. rewrite C. assert (key_ext L k to_val h (a_loc a) false = Ok (mk_ext L KEY_EXT false a')) as -> by (apply key_ext_iff; exists a'; auto).
      cbn [bind]. apply patch_cert_iff, H6.
Qed.
Lemma convert_sig_iff L to_val c c' : convert_sig L c to_val = Ok c' <-> sig_converted L to_val c c'.
Proof.
  unfold convert_sig, sig_converted, first_alt. split.
  - intros H. bd H as o, O. destruct o as [e|]; [|discriminate H]. apply non_critical_iff in O. destruct O as [F C]. bd H as a, A. apply dec_iff in A. destruct A as (r & A).
    exists a. split; [exists e, r; auto|]. destruct (Bool.eqb to_val (a_by a)) eqn:B.
    + apply Bool.eqb_prop in B. left. split; congruence.
    + apply bool_neq in B. right. split; [exact B|]. bd H as h, Hh. apply hash_of_iff in Hh. bd H as s, K. bd H as e', E. rewrite C in E.
      apply sig_ext_iff in E. destruct E as (a' & E & ->). apply patch_cert_iff in H. exists h, s, a'. split; [exact Hh|]. split; [|auto]. destruct to_val; [|congruence].
      destruct (named (a_loc a)) as [x|] eqn:X; [|discriminate K]. apply named_some in X. destruct X as [X N]. bd K as f, Ff. destruct f as [[|z f]|]; try discriminate K.
      assert (s = z :: f) as -> by congruence. apply fetch_some in Ff. exists x. tauto.
  - intros (a & (e & r & F & C & A) & H). assert (get_non_critical (exts_of (t_exts (c_tbs c))) SIG_EXT = Ok (Some e)) as -> by (apply non_critical_iff; auto).
    cbn [bind]. assert (dec L (x_val e) = Ok a) as -> by (apply dec_iff; exists r; exact A). cbn [bind]. destruct H as [[H1 ->]|(H1 & h & s & a' & H2 & H4 & H5 & H6)].
    + rewrite H1, Bool.eqb_reflx. reflexivity.
    + assert (Bool.eqb to_val (a_by a) = false) as -> by (apply bool_neq; exact H1). apply hash_of_iff in H2. rewrite H2. cbn [bind].
      assert ((if to_val then match named (a_loc a) with None => Err EValueError | Some loc => let! f := fetch L loc in match f with Some (b :: r0) => Ok (b :: r0) | _ => Err EValueError end end
               else Ok (a_val a)) = Ok s) as ->.
      { destruct to_val; [|congruence]. destruct H4 as (x & -> & N & G). assert (named (Some x) = Some x) as -> by (apply named_some; auto).
        assert (fetch L x = Ok (Some s)) as -> by (apply fetch_some; auto). cbn [bind]. destruct H5 as [H5 _]. destruct s; [now destruct H5|reflexivity]. }
      cbn [bind]. rewrite C. assert (sig_ext L s to_val (a_alg a) h (a_loc a) false = Ok (mk_ext L SIG_EXT false a')) as -> by (apply sig_ext_iff; exists a'; auto).
      cbn [bind]. apply patch_cert_iff, H6.
Qed.
Lemma form_of_iff f k s : form_of f = Some (k, s) <-> form f k s.
Proof.
  unfold form_of, form_map, form. cbn [find fst snd].
  destruct (String.eqb_spec "Form1" f) as [<-|N1]; [split; [intros H; injection H as <- <-; auto 6 | intros [(_ & -> & ->)|[(Q & _)|[(Q & _)|(Q & _)]]]; [reflexivity|discriminate Q..]]|].
  destruct (String.eqb_spec "Form2" f) as [<-|N2]; [split; [intros H; injection H as <- <-; auto 6 | intros [(Q & _)|[(_ & -> & ->)|[(Q & _)|(Q & _)]]]; [discriminate Q|reflexivity|discriminate Q..]]|].
  destruct (String.eqb_spec "Form3" f) as [<-|N3]; [split; [intros H; injection H as <- <-; auto 7 | intros [(Q & _)|[(Q & _)|[(_ & -> & ->)|(Q & _)]]]; try discriminate Q; reflexivity]|].
  destruct (String.eqb_spec "Form4" f) as [<-|N4]; [split; [intros H; injection H as <- <-; auto 7 | intros [(Q & _)|[(Q & _)|[(Q & _)|(_ & -> & ->)]]]; try discriminate Q; reflexivity]|].
  split; [discriminate|]. intros [(Q & _)|[(Q & _)|[(Q & _)|(Q & _)]]]; congruence.
Qed.
Lemma convert_iff L c f c' : convert L c f = Ok c' <-> exists k s c1, form f k s /\ key_converted L k c c1 /\ sig_converted L s c1 c'.
Proof.
  unfold convert. split.
  - destruct (form_of f) as [[k s]|] eqn:F; [|discriminate]. intros H. bd H as c1, K. exists k, s, c1. apply form_of_iff in F. apply convert_key_iff in K. apply convert_sig_iff in H. auto.
  - intros (k & s & c1 & F & K & S). apply form_of_iff in F. rewrite F. apply convert_key_iff in K. rewrite K. cbn [bind]. apply convert_sig_iff, S.
Qed.
Lemma convert_invalid L c f : (forall k s, ~ form f k s) -> convert L c f = Err EValueError.
Proof. intros H. unfold convert. destruct (form_of f) as [[k s]|] eqn:F; [|reflexivity]. apply form_of_iff in F. destruct (H k s F). Qed.

(** ** The form of a certificate *)
Lemma last_alts_iff L l : forall k s k' s', last_alts L l k s = Ok (k', s') <->
  all_decoded L l KEY_EXT /\ all_decoded L l SIG_EXT
  /\ ((exists a, last_alt L l KEY_EXT a /\ k' = Some a) \/ (~ occurs KEY_EXT l /\ k' = k))
  /\ ((exists a, last_alt L l SIG_EXT a /\ s' = Some a) \/ (~ occurs SIG_EXT l /\ s' = s)).
Proof.
  assert (forall o e l, all_decoded L (e :: l) o <-> (x_id e = o -> exists a r, l_altdec L (x_val e) = Some (a, r)) /\ all_decoded L l o) as AD.
  { intros o e m. unfold all_decoded. split.
    - intros H. split; [intros E; apply (H e); [left; reflexivity|exact E]|intros x I; apply H; right; exact I].
    - intros [H1 H2] x [<-|I]; [exact H1|apply H2, I]. }
  assert (forall o e l a, x_id e <> o -> (last_alt L (e :: l) o a <-> last_alt L l o a)) as LA.
  { intros o e m a N. unfold last_alt, last_is. split.
    - intros (x & r & (p & q & H1 & H2 & H3) & D). exists x, r. split; [|exact D]. destruct p as [|y p]; cbn [app] in H1; [injection H1 as -> ->; contradiction|].
      injection H1 as _ ->. exists p, q. auto.
    - intros (x & r & (p & q & -> & H2 & H3) & D). exists x, r. split; [|exact D]. exists (e :: p), q. auto. }
  assert (forall o e l k' k v, x_id e = o -> (exists r, l_altdec L (x_val e) = Some (v, r)) ->
    (((exists a, last_alt L (e :: l) o a /\ k' = Some a) \/ (~ occurs o (e :: l) /\ k' = k)) <-> ((exists a, last_alt L l o a /\ k' = Some a) \/ (~ occurs o l /\ k' = Some v)))) as KEEP.
  { intros o e m k' k v E (r & D). split.
    - intros [(a & (x & r' & (p & q & H1 & H2 & H3) & D') & ->)|[N _]]; [|destruct N; apply occurs_cons; auto].
      destruct p as [|y p]; cbn [app] in H1.
      + injection H1 as -> ->. right. split; [exact H3|congruence].
      + injection H1 as _ ->. left. exists a. split; [|reflexivity]. exists x, r'. split; [exists p, q; auto|exact D'].
    - intros [(a & (x & r' & (p & q & -> & H2 & H3) & D') & ->)|[N ->]]; left.
      + exists a. split; [|reflexivity]. exists x, r'. split; [exists (e :: p), q; auto|exact D'].
      + exists v. split; [|reflexivity]. exists e, r. split; [exists [], m; auto|exact D]. }
  induction l as [|e l IH]; intros k s k' s'; cbn [last_alts].
  - split.
    + intros H. injection H as -> ->. split; [intros ? []|]. split; [intros ? []|]. split; right; split; try reflexivity; apply occurs_nil.
    + intros (_ & _ & [(a & (x & r & (p & q & Q & _) & _) & _)|[_ ->]] & H); [destruct p; discriminate Q|].
      destruct H as [(a & (x & r & (p & q & Q & _) & _) & _)|[_ ->]]; [destruct p; discriminate Q|reflexivity].
  - rewrite !AD. destruct (String.eqb_spec (x_id e) KEY_EXT) as [E|N].
    + assert (x_id e <> SIG_EXT) as N2 by (rewrite E; discriminate). rewrite occurs_cons. split.
      * intros H. bd H as a, A. apply dec_iff in A. apply IH in H. destruct H as (H1 & H2 & H3 & H4).
        split; [split; [intros _; exists a; exact A|exact H1]|]. split; [split; [intros Q; contradiction|exact H2]|]. split.
        -- apply (proj2 (KEEP KEY_EXT e l k' k a E A)) in H3. rewrite occurs_cons in H3. exact H3.
        -- destruct H4 as [(x & H4 & ->)|[H4 ->]]; [left; exists x; split; [apply LA; assumption|reflexivity]|right; split; [|reflexivity]]. rewrite occurs_cons. tauto.
      * intros ((H0 & H1) & (_ & H2) & H3 & H4). destruct (H0 E) as (a & r & D). assert (dec L (x_val e) = Ok a) as -> by (apply dec_iff; exists r; exact D). cbn [bind].
        apply IH. split; [exact H1|]. split; [exact H2|]. split.
        -- apply (proj1 (KEEP KEY_EXT e l k' k a E (ex_intro _ r D))). rewrite occurs_cons. exact H3.
        -- destruct H4 as [(x & H4 & ->)|[H4 ->]]; [left; exists x; split; [apply LA in H4; assumption|reflexivity]|right; split; [|reflexivity]]. rewrite occurs_cons in H4. tauto.
    + destruct (String.eqb_spec (x_id e) SIG_EXT) as [E|N2].
      * rewrite occurs_cons. split.
        -- intros H. bd H as a, A. apply dec_iff in A. apply IH in H. destruct H as (H1 & H2 & H3 & H4).
           split; [split; [intros Q; contradiction|exact H1]|]. split; [split; [intros _; exists a; exact A|exact H2]|]. split.
           ++ destruct H3 as [(x & H3 & ->)|[H3 ->]]; [left; exists x; split; [apply LA; assumption|reflexivity]|right; split; [|reflexivity]]. tauto.
           ++ apply (proj2 (KEEP SIG_EXT e l s' s a E A)) in H4. exact H4.
        -- intros ((_ & H1) & (H0 & H2) & H3 & H4). destruct (H0 E) as (a & r & D). assert (dec L (x_val e) = Ok a) as -> by (apply dec_iff; exists r; exact D). cbn [bind].
           apply IH. split; [exact H1|]. split; [exact H2|]. split.
           ++ destruct H3 as [(x & H3 & ->)|[H3 ->]]; [left; exists x; split; [apply LA in H3; assumption|reflexivity]|right; split; [|reflexivity]]. tauto.
           ++ apply (proj1 (KEEP SIG_EXT e l s' s a E (ex_intro _ r D))). exact H4.
      * rewrite IH. rewrite !occurs_cons. split.
        -- intros (H1 & H2 & H3 & H4). split; [split; [intros Q; contradiction|exact H1]|]. split; [split; [intros Q; contradiction|exact H2]|]. split.
           ++ destruct H3 as [(x & H3 & ->)|[H3 ->]]; [left; exists x; split; [apply LA; assumption|reflexivity]|right; split; [|reflexivity]]. tauto.
           ++ destruct H4 as [(x & H4 & ->)|[H4 ->]]; [left; exists x; split; [apply LA; assumption|reflexivity]|right; split; [|reflexivity]]. tauto.
        -- intros ((_ & H1) & (_ & H2) & H3 & H4). split; [exact H1|]. split; [exact H2|]. split.
           ++ destruct H3 as [(x & H3 & ->)|[H3 ->]]; [left; exists x; split; [apply LA in H3; assumption|reflexivity]|right; split; [|reflexivity]]. tauto.
           ++ destruct H4 as [(x & H4 & ->)|[H4 ->]]; [left; exists x; split; [apply LA in H4; assumption|reflexivity]|right; split; [|reflexivity]]. tauto.
Qed.
Lemma get_form_iff L c f : get_form L c = Ok f <->
  all_decoded L (exts c) KEY_EXT /\ all_decoded L (exts c) SIG_EXT
  /\ exists k s, last_alt L (exts c) KEY_EXT k /\ last_alt L (exts c) SIG_EXT s /\ form f (a_by k) (a_by s).
Proof.
  unfold get_form. change (exts_of (t_exts (c_tbs c))) with (exts c). split.
  - intros H. bd H as p, P. destruct p as [k s]. apply last_alts_iff in P. destruct P as (H1 & H2 & H3 & H4).
    destruct k as [k|]; [|discriminate H]. destruct s as [s|]; [|discriminate H]. split; [exact H1|]. split; [exact H2|].
    destruct H3 as [(a & H3 & E)|[_ Q]]; [|discriminate Q]. injection E as <-. destruct H4 as [(a & H4 & E)|[_ Q]]; [|discriminate Q]. injection E as <-.
    exists k, s. split; [exact H3|]. split; [exact H4|]. injection H as <-. unfold form. destruct (a_by k), (a_by s); auto 8.
  - intros (H1 & H2 & k & s & H3 & H4 & H5).
    assert (last_alts L (exts c) None None = Ok (Some k, Some s)) as -> by (apply last_alts_iff; split; [exact H1|]; split; [exact H2|]; split; left; [exists k|exists s]; auto).
    cbn [bind]. unfold form in H5. destruct H5 as [(-> & -> & ->)|[(-> & -> & ->)|[(-> & -> & ->)|(-> & -> & ->)]]]; reflexivity.
Qed.
