(** Proofs about responses. *)
From Coq Require Import String.
From Verif Require Import Prelude PreludeFacts PyStr ProtMac GenModel GenProofs RspModel RspSpec.
Open Scope string_scope.
Open Scope Z_scope.
Open Scope list_scope.
Local Notation length := List.length.

Lemma coe_plain m i c : coe_of (nth_error (b_resps m) i) = Plain c <-> certified m i c.
Proof.
  unfold certified, pair_at, coe_of. destruct (nth_error (b_resps m) i) as [r|]; [destruct (p_pair r) as [k|] eqn:P|].
  - split; [intros H; exists k; split; [exists r; auto | exact H]|]. intros (k' & (r' & E & P') & H). congruence.
  - split; [discriminate|]. intros (k' & (r' & E & P') & H). congruence.
  - split; [discriminate|]. intros (k' & (r' & E & P') & H). congruence.
Qed.
Lemma coe_enc m i e : coe_of (nth_error (b_resps m) i) = Enc e <-> encrypted m i e.
Proof.
  unfold encrypted, pair_at, coe_of. destruct (nth_error (b_resps m) i) as [r|]; [destruct (p_pair r) as [k|] eqn:P|].
  - split; [intros H; exists k; split; [exists r; auto | exact H]|]. intros (k' & (r' & E & P') & H). congruence.
  - split; [discriminate|]. intros (k' & (r' & E & P') & H). congruence.
  - split; [discriminate|]. intros (k' & (r' & E & P') & H). congruence.
Qed.
Lemma coe_gone m i : coe_of (nth_error (b_resps m) i) = Gone <-> no_pair m i.
Proof.
  unfold no_pair, pair_at, coe_of. destruct (nth_error (b_resps m) i) as [r|]; [destruct (p_pair r) as [k|] eqn:P|].
  - split; [intros H k' (r' & E & P'); congruence|]. intros H. apply H. eauto.
  - split; [intros H k' (r' & E & P'); congruence|]. reflexivity.
  - split; [intros H k' (r' & E & P'); congruence|]. reflexivity.
Qed.
Lemma priv_some m i e : priv_of (nth_error (b_resps m) i) = Some e <-> with_key m i e.
Proof.
  unfold with_key, pair_at, priv_of. destruct (nth_error (b_resps m) i) as [r|]; [destruct (p_pair r) as [k|] eqn:P|].
  - split; [intros H; exists k; split; [exists r; auto | exact H]|]. intros (k' & (r' & E & P') & H). congruence.
  - split; [discriminate|]. intros (k' & (r' & E & P') & H). congruence.
  - split; [discriminate|]. intros (k' & (r' & E & P') & H). congruence.
Qed.
Lemma priv_none m i : priv_of (nth_error (b_resps m) i) = None <-> without_key m i.
Proof.
  unfold without_key, pair_at, priv_of. destruct (nth_error (b_resps m) i) as [r|]; [destruct (p_pair r) as [k|] eqn:P|].
  - split; [intros H k' (r' & E & P'); congruence|]. intros H. apply H. eauto.
  - split; [intros H k' (r' & E & P'); congruence|]. reflexivity.
  - split; [intros H k' (r' & E & P'); congruence|]. reflexivity.
Qed.

Lemma body_iff m : str_mem (b_name m) cert_bodies = true <-> response_body m.
Proof. rewrite str_mem_In. unfold cert_bodies, response_body. cbn [In]. intuition congruence. Qed.
Lemma body_iff2 m : str_mem (b_name m) ["ip"; "kup"; "cp"; "ccp"] = true <-> response_body m.
Proof. rewrite str_mem_In. unfold response_body. cbn [In]. intuition congruence. Qed.
Lemma resp_iff m i r : get_resp m i = Ok r <-> response_body m /\ r = nth_error (b_resps m) i.
Proof.
  unfold get_resp. rewrite <- body_iff. destruct (str_mem (b_name m) cert_bodies); cbn [guard bind].
  - split; [intros H; injection H as <-; auto | intros (_ & ->); reflexivity].
  - split; [discriminate | intros (H & _); discriminate].
Qed.

(** ** Updates *)

Lemma update_length l i f : length (update l i f) = length l.
Proof. revert i. induction l as [|r l IH]; intros [|i]; cbn; auto. Qed.
Lemma update_same l i f : nth_error (update l i f) i = option_map f (nth_error l i).
Proof. revert i. induction l as [|r l IH]; intros [|i]; cbn; auto. Qed.
Lemma update_other l i j f : j <> i -> nth_error (update l i f) j = nth_error l j.
Proof. revert i j. induction l as [|r l IH]; intros [|i] [|j] N; cbn; auto; try congruence. Qed.
Lemma update_id l i f : (forall r, nth_error l i = Some r -> f r = r) -> update l i f = l.
Proof. revert i. induction l as [|r l IH]; intros [|i] H; cbn; auto; f_equal; [now apply H | now apply IH]. Qed.

Lemma put_same m i x : coe_of (nth_error (b_resps m) i) = x -> put_at m i x = m.
Proof.
  intros H. unfold put_at. rewrite update_id; [now destruct m|]. intros r R. rewrite R in H. cbn [coe_of] in H. unfold put. destruct r as [a b c [k|]]; cbn in *; [|reflexivity].
  subst x. now destruct k.
Qed.
Lemma put_gone m i : coe_of (nth_error (b_resps (put_at m i Gone)) i) = Gone.
Proof.
  unfold put_at. cbn [b_resps]. rewrite update_same. destruct (nth_error (b_resps m) i) as [r|]; [|reflexivity]. cbn. now destruct (p_pair r).
Qed.

(** ** The structure of the key pair *)

Lemma structure_ok m local i : snd (key_pair_structure m local i) = Ok tt <->
  response_body m /\ key_fits m local i /\ (encrypted m i true -> b_pvno m = 3).
Proof.
  unfold key_pair_structure, key_fits. destruct (get_resp m i) as [r|e] eqn:G.
  - apply resp_iff in G. destruct G as (B & ->). rewrite <- coe_enc.
    destruct (priv_of (nth_error (b_resps m) i)) as [e|] eqn:P.
    + assert (W : with_key m i e) by (now apply priv_some). destruct local; cbn [andb negb].
      * cbn [snd]. split; [discriminate|]. intros (_ & H & _). apply priv_none in H. congruence.
      * destruct (e && negb (b_pvno m =? 3)) eqn:V; cbn [snd].
        -- split; [discriminate|]. intros (_ & (e' & W' & H) & _). apply priv_some in W'. assert (e' = e) by congruence. subst e'.
           apply andb_true_iff in V. destruct V as (-> & V). apply negb_true_iff, Z.eqb_neq in V. exfalso. apply V. now apply H.
        -- rewrite guard_iff, negb_true_iff. split.
           ++ intros H. split; [exact B|]. split.
              ** exists e. split; [exact W|]. intros ->. cbn in V. apply negb_false_iff, Z.eqb_eq in V. exact V.
              ** intros E. rewrite E in H. cbn in H. apply negb_false_iff, Z.eqb_eq in H. exact H.
           ++ intros (_ & _ & H). destruct (coe_of (nth_error (b_resps m) i)) as [c|d|]; try reflexivity. destruct d; [|reflexivity]. cbn.
              apply negb_false_iff, Z.eqb_eq. now apply H.
    + assert (W : without_key m i) by (now apply priv_none). destruct local; cbn [andb negb].
      * cbn [snd]. rewrite guard_iff, negb_true_iff. split.
        -- intros H. split; [exact B|]. split; [exact W|]. intros E. rewrite E in H. cbn in H. apply negb_false_iff, Z.eqb_eq in H. exact H.
        -- intros (_ & _ & H). destruct (coe_of (nth_error (b_resps m) i)) as [c|d|]; try reflexivity. destruct d; [|reflexivity]. cbn.
           apply negb_false_iff, Z.eqb_eq. now apply H.
      * cbn [snd]. split; [discriminate|]. intros (_ & (e & H & _) & _). apply priv_some in H. congruence.
  - cbn [snd]. split; [discriminate|]. intros (B & _). assert (E : get_resp m i = Ok (nth_error (b_resps m) i)) by (now apply resp_iff). congruence.
Qed.
Lemma structure_after m local i : snd (key_pair_structure m local i) = Ok tt ->
  fst (key_pair_structure m local i) = put_at m i (fst (read_enc (coe_of (nth_error (b_resps m) i)))).
Proof.
  unfold key_pair_structure. destruct (get_resp m i) as [r|e] eqn:G; [|discriminate]. apply resp_iff in G. destruct G as (_ & ->).
  repeat match goal with |- context [if ?b then _ else _] => destruct b end; cbn [fst snd]; try discriminate. reflexivity.
Qed.

Lemma private_key_iff m i b : contains_private_key m i = Ok b <->
  response_body m /\ (b = true <-> (exists e, with_key m i e) /\ ~ no_pair m i).
Proof.
  unfold contains_private_key. rewrite bind_iff. split.
  - intros (r & G & H). apply resp_iff in G. destruct G as (B & ->). split; [exact B|]. injection H as <-. unfold has_pair.
    rewrite andb_true_iff. rewrite <- coe_gone. destruct (priv_of (nth_error (b_resps m) i)) as [e|] eqn:P.
    + apply priv_some in P. destruct (coe_of (nth_error (b_resps m) i)); cbn [is_value]; split; try (intros (X & Y)); try congruence; try (split; [eauto | congruence]); auto.
    + split; [intros (_ & H); discriminate|]. intros ((e & H) & _). apply priv_some in H. congruence.
  - intros (B & H). exists (nth_error (b_resps m) i). split; [now apply resp_iff|]. f_equal. unfold has_pair. rewrite <- coe_gone in H.
    destruct (priv_of (nth_error (b_resps m) i)) as [e|] eqn:P.
    + apply priv_some in P. destruct (coe_of (nth_error (b_resps m) i)); cbn [is_value andb]; destruct b; try reflexivity.
      * exfalso. enough (false = true) by discriminate. apply H. split; [eauto | discriminate].
      * exfalso. enough (false = true) by discriminate. apply H. split; [eauto | discriminate].
      * exfalso. apply (proj1 H eq_refl). reflexivity.
    + rewrite andb_false_r. destruct b; [|reflexivity]. destruct (proj1 H eq_refl) as ((e & W) & _). apply priv_some in W. congruence.
Qed.
Lemma encrypted_iff m i b : contains_encrypted_cert m i = Ok b <-> response_body m /\ (b = true <-> exists e, encrypted m i e).
Proof.
  unfold contains_encrypted_cert. rewrite bind_iff.
  assert (X : (match coe_of (nth_error (b_resps m) i) with Enc _ => true | _ => false end) = true <-> exists e, encrypted m i e).
  { destruct (coe_of (nth_error (b_resps m) i)) as [c|e|] eqn:C; split; try discriminate.
    - intros (e & E). apply coe_enc in E. congruence.
    - intros _. exists e. now apply coe_enc.
    - reflexivity.
    - intros (e & E). apply coe_enc in E. congruence. }
  split.
  - intros (r & G & H). apply resp_iff in G. destruct G as (B & ->). injection H as <-. split; [exact B | exact X].
  - intros (B & H). exists (nth_error (b_resps m) i). split; [now apply resp_iff|]. f_equal.
    destruct (match coe_of (nth_error (b_resps m) i) with Enc _ => true | _ => false end), b; try reflexivity.
    + symmetry. apply H, X. reflexivity.
    + apply X, H. reflexivity.
Qed.

(** ** caPubs *)

Lemma get_cert_iff m i c : snd (get_cert m i) = Ok c <-> response_body m /\ certified m i c.
Proof.
  unfold get_cert. destruct (get_resp m i) as [r|e] eqn:G.
  - apply resp_iff in G. destruct G as (B & ->). rewrite <- coe_plain. destruct (coe_of (nth_error (b_resps m) i)) as [d|d|]; cbn; split; try discriminate; try (intros (_ & H); discriminate).
    + intros H. injection H as <-. auto.
    + intros (_ & H). now injection H as <-.
  - cbn [snd]. split; [discriminate|]. intros (B & _). assert (E : get_resp m i = Ok (nth_error (b_resps m) i)) by (now apply resp_iff). congruence.
Qed.
Lemma get_cert_after m i c : snd (get_cert m i) = Ok c -> fst (get_cert m i) = m.
Proof.
  intros H. pose proof H as H'. apply get_cert_iff in H'. destruct H' as (B & C). apply coe_plain in C. unfold get_cert in *.
  destruct (get_resp m i) as [r|e] eqn:G; [|discriminate]. apply resp_iff in G. destruct G as (_ & ->). rewrite C. cbn. now apply put_same.
Qed.

Lemma get_cert_lost m i e : response_body m -> encrypted m i e -> get_cert m i = (put_at m i Gone, Err EValueError).
Proof.
  intros B C. apply coe_enc in C. unfold get_cert. destruct (get_resp m i) as [r|x] eqn:G.
  - apply resp_iff in G. destruct G as (_ & ->). rewrite C. reflexivity.
  - exfalso. assert (G' : get_resp m i = Ok (nth_error (b_resps m) i)) by (apply resp_iff; auto). congruence.
Qed.

(** The outcome of the check of [caPubs]. *)
Lemma pubs_ok L m i p ir : snd (ca_pubs_field L m i p ir) = Ok tt <->
  (no_pair m i /\ b_pubs m = None) \/
  (~ no_pair m i /\ response_body m /\ exists c, certified m 0 c /\ pubs_fit L m c /\
   (b_pubs m <> None -> b_name m = "cp" \/ ir = true -> p = true)).
Proof.
  unfold ca_pubs_field, has_pair. rewrite <- coe_gone. destruct (is_value (coe_of (nth_error (b_resps m) i))) eqn:V.
  - assert (N : coe_of (nth_error (b_resps m) i) <> Gone) by (intros E; rewrite E in V; discriminate). cbn [snd]. rewrite bind_iff. split.
    + intros (c & G & H). right. split; [exact N|]. pose proof (get_cert_after _ _ _ G) as A. rewrite A in H. apply get_cert_iff in G. destruct G as (B & C).
      split; [exact B|]. exists c. split; [exact C|]. destruct (b_pubs m) as [ps|] eqn:P.
      * step H g1 G1. step H g2 G2. step H g3 G3. step H ch Ch. step H g5 G5.
        apply guard_iff, negb_true_iff in G1. apply guard_iff, negb_true_iff, String.eqb_neq in G2. apply guard_iff, negb_true_iff, Nat.eqb_neq in G5. destruct g3.
        split; [intros ps' E; rewrite P in E; injection E as <-; eauto 8|].
        intros _ X. apply andb_false_iff in G1. destruct G1 as [G1|G1]; [|now apply negb_false_iff in G1].
        apply orb_false_iff in G1. destruct G1 as (G1 & ->). apply String.eqb_neq in G1. destruct X; [contradiction | discriminate].
      * split; [intros ps' E; congruence | congruence].
    + intros [(E & _) | (_ & B & c & C & F & X)]; [contradiction|]. exists c. assert (G : snd (get_cert m 0) = Ok c) by (now apply get_cert_iff).
      split; [exact G|]. rewrite (get_cert_after _ _ _ G). destruct (b_pubs m) as [ps|] eqn:P; [|reflexivity].
      destruct (F ps P) as (K & A & ch & Ch & Le & O).
      assert (G1 : (String.eqb (b_name m) "cp" || ir) && negb p = false).
      { destruct (String.eqb_spec (b_name m) "cp") as [E|E]; cbn [orb].
        - rewrite X; [reflexivity | discriminate | auto].
        - destruct ir; [|reflexivity]. rewrite X; [reflexivity | discriminate | auto]. }
      rewrite G1. cbn [negb guard bind]. rewrite (proj2 (String.eqb_neq _ _) K). cbn [negb guard bind]. rewrite A. cbn [bind]. rewrite Ch. cbn [bind].
      rewrite (proj2 (Nat.eqb_neq _ _) Le). cbn [negb guard bind]. exact O.
  - assert (N : coe_of (nth_error (b_resps m) i) = Gone) by (destruct (coe_of (nth_error (b_resps m) i)); [discriminate | discriminate | reflexivity]).
    cbn [snd]. destruct (b_pubs m); split; try discriminate; auto.
    + intros [(_ & H) | (H & _)]; [discriminate | contradiction].
Qed.
Lemma pubs_after L m p ir : snd (ca_pubs_field L m 0 p ir) = Ok tt -> fst (ca_pubs_field L m 0 p ir) = m.
Proof.
  unfold ca_pubs_field. destruct (has_pair (nth_error (b_resps m) 0)); [|reflexivity]. cbn [fst snd]. intros H. apply bind_iff in H. destruct H as (c & G & _).
  exact (get_cert_after _ _ _ G).
Qed.

(** ** The body *)

Lemma reqid_iff m i p : cert_req_id m i p = Ok tt <-> response_body m /\ exists r, nth_error (b_resps m) i = Some r /\ p_id r = if p then -1 else 0.
Proof.
  unfold cert_req_id. rewrite bind_iff. split.
  - intros (r & G & H). apply resp_iff in G. destruct G as (B & ->). split; [exact B|]. destruct (nth_error (b_resps m) i) as [r|]; [|discriminate].
    apply guard_iff, Z.eqb_eq in H. eauto.
  - intros (B & r & R & I). exists (nth_error (b_resps m) i). split; [now apply resp_iff|]. rewrite R. now apply guard_iff, Z.eqb_eq.
Qed.
Lemma granted_iff s : str_mem s ["accepted"; "grantedWithMods"] = true <-> granted s.
Proof. rewrite str_mem_In. unfold granted. cbn [In]. intuition congruence. Qed.
Lemma granted_not s : granted s -> s <> "rejection" /\ s <> "waiting".
Proof. intros [-> | ->]; split; discriminate. Qed.
Lemma first_iff L m ir : response_body m -> (snd (ca_pubs_field L m 0 true ir) = Ok tt <-> first_fits L m).
Proof.
  intros B. rewrite pubs_ok. unfold first_fits. split.
  - intros [H | (_ & _ & c & C & F & _)]; eauto.
  - intros [H | (c & C & F)]; [auto|]. right. split.
    + intros N. apply coe_gone in N. apply coe_plain in C. congruence.
    + split; [exact B|]. exists c. auto.
Qed.

Lemma body_ok L m local p ir size i : snd (ca_body L m local p ir size i) = Ok tt <->
  response_body m /\ Z.of_nat (length (b_resps m)) = size /\
  (exists r, nth_error (b_resps m) i = Some r /\ p_id r = if p then -1 else 0) /\
  exists s, nth_error (b_resps m) 0 = Some s /\
  ((granted (p_status s) /\ p_fail s = false /\ (exists c, certified m i c) /\ first_fits L m /\ key_fits m local i) \/
   (p_status s = "rejection" /\ no_pair m i /\ b_pubs m = None)).
Proof.
  unfold ca_body. destruct (str_mem (b_name m) ["ip"; "kup"; "cp"; "ccp"]) eqn:B; cbn [negb].
  2:{ cbn [snd]. split; [discriminate|]. intros (H & _). apply body_iff2 in H. congruence. }
  apply body_iff2 in B. destruct (Z.eqb_spec (Z.of_nat (length (b_resps m))) size) as [Sz|Sz]; cbn [negb].
  2:{ cbn [snd]. split; [discriminate|]. intros (_ & H & _). contradiction. }
  destruct (cert_req_id m i p) as [u|e] eqn:Id.
  2:{ cbn [snd]. split; [discriminate|]. intros (_ & _ & H & _). assert (E : cert_req_id m i p = Ok tt) by (apply reqid_iff; auto). congruence. }
  destruct u. apply reqid_iff in Id. destruct Id as (_ & Id).
  destruct (nth_error (b_resps m) 0) as [s|] eqn:F0.
  2:{ cbn [snd]. split; [discriminate|]. intros (_ & _ & _ & s & H & _). congruence. }
  destruct (str_mem (p_status s) ["accepted"; "grantedWithMods"]) eqn:Gr.
  - apply granted_iff in Gr. destruct (granted_not _ Gr) as (NR & _). destruct (p_fail s) eqn:Fa.
    { cbn [snd]. split; [discriminate|]. intros (_ & _ & _ & s' & H & [(_ & X & _) | (X & _)]); [congruence | congruence]. }
    destruct (coe_of (nth_error (b_resps m) i)) as [c|c|] eqn:C; cbn [read_cert fst snd].
    2,3: split; [discriminate|]; intros (_ & _ & _ & s' & H & [(_ & _ & (c' & X) & _) | (X & _)]); [apply coe_plain in X; congruence | congruence].
    rewrite (put_same m i (Plain c) C). destruct (snd (ca_pubs_field L m 0 true ir)) as [u|e] eqn:Pu.
    + destruct u. rewrite (pubs_after _ _ _ _ Pu). apply (first_iff L m ir B) in Pu. rewrite structure_ok. split.
      * intros (_ & K & _). split; [exact B|]. split; [exact Sz|]. split; [exact Id|]. exists s. split; [reflexivity|]. left.
        split; [exact Gr|]. split; [exact Fa|]. split; [exists c; now apply coe_plain|]. auto.
      * intros (_ & _ & _ & s' & H & [(_ & _ & _ & _ & K) | (X & _)]); [|congruence]. split; [exact B|]. split; [exact K|].
        intros E. apply coe_enc in E. congruence.
    + cbn [snd]. split; [discriminate|]. intros (_ & _ & _ & s' & H & [(_ & _ & _ & X & _) | (X & _)]); [|congruence].
      apply (first_iff L m ir B) in X. congruence.
  - destruct (String.eqb_spec (p_status s) "rejection") as [R|R].
    + cbn [snd]. split.
      * intros H. step H g G. apply guard_iff, negb_true_iff in G. apply guard_iff in H. split; [exact B|]. split; [exact Sz|]. split; [exact Id|].
        exists s. split; [reflexivity|]. right. split; [exact R|]. unfold has_pair in G.
        split; [apply coe_gone; destruct (coe_of (nth_error (b_resps m) i)); [discriminate | discriminate | reflexivity] | now destruct (b_pubs m)].
      * intros (_ & _ & _ & s' & H & [(X & _) | (_ & N & P)]).
        -- injection H as <-. apply granted_iff in X. congruence.
        -- apply coe_gone in N. unfold has_pair. rewrite N. cbn [is_value negb guard bind]. now rewrite P.
    + assert (O : forall (P : Prop), P -> (exists s', Some s = Some s' /\ ((granted (p_status s') /\ p_fail s' = false /\ (exists c, certified m i c) /\ first_fits L m /\ key_fits m local i) \/ (p_status s' = "rejection" /\ no_pair m i /\ b_pubs m = None))) -> False).
      { intros _ _ (s' & H & [(X & _) | (X & _)]); injection H as <-; [apply granted_iff in X; congruence | contradiction]. }
      destruct (String.eqb (p_status s) "waiting"); cbn [snd]; (split; [discriminate|]; intros (_ & _ & _ & H); exfalso; exact (O True I H)).
Qed.

(** After an accepted response is checked it holds no certificate any more. *)
Lemma body_after L m local p ir size i s :
  snd (ca_body L m local p ir size i) = Ok tt -> nth_error (b_resps m) 0 = Some s -> granted (p_status s) ->
  fst (ca_body L m local p ir size i) = put_at m i Gone.
Proof.
  intros H F0 Gr. pose proof H as H'. apply body_ok in H'. destruct H' as (B & Sz & Id & s' & F0' & [(_ & Fa & (c & C) & Fi & K) | (X & _)]).
  2:{ assert (s' = s) by congruence. subst s'. destruct (granted_not _ Gr). contradiction. }
  assert (s' = s) by congruence. subst s'. revert H. unfold ca_body. rewrite (proj2 (body_iff2 m) B). cbn [negb]. rewrite (proj2 (Z.eqb_eq _ _) Sz). cbn [negb].
  assert (I' : cert_req_id m i p = Ok tt) by (apply reqid_iff; auto). rewrite I', F0, (proj2 (granted_iff _) Gr), Fa. apply coe_plain in C. rewrite C. cbn [read_cert fst snd].
  rewrite (put_same m i (Plain c) C). assert (Pu : snd (ca_pubs_field L m 0 true ir) = Ok tt) by (now apply first_iff). rewrite Pu, (pubs_after _ _ _ _ Pu).
  intros H. rewrite (structure_after _ _ _ H), C. reflexivity.
Qed.

Lemma body_twice L m local p ir size i s :
  snd (ca_body L m local p ir size i) = Ok tt -> nth_error (b_resps m) 0 = Some s -> granted (p_status s) ->
  let m' := fst (ca_body L m local p ir size i) in
  no_pair m' i /\ (forall c, snd (get_cert m' i) <> Ok c) /\
  forall L' local' p' ir' size', snd (ca_body L' m' local' p' ir' size' i) <> Ok tt.
Proof.
  intros H F0 Gr m'. unfold m'. rewrite (body_after _ _ _ _ _ _ _ _ H F0 Gr). clear m'. pose proof (put_gone m i) as N.
  split; [now apply coe_gone|]. split.
  - intros c C. apply get_cert_iff in C. destruct C as (_ & C). apply coe_plain in C. congruence.
  - intros L' local' p' ir' size' X. apply body_ok in X. destruct X as (_ & _ & _ & s' & F0' & [(_ & _ & (c & C) & _) | (R & _)]).
    + apply coe_plain in C. congruence.
    + unfold put_at in F0'. cbn [b_resps] in F0'. destruct i as [|i].
      * rewrite update_same, F0 in F0'. cbn in F0'. injection F0' as <-. cbn in R. destruct (granted_not _ Gr). contradiction.
      * rewrite update_other in F0' by discriminate. rewrite F0 in F0'. injection F0' as <-. destruct (granted_not _ Gr). contradiction.
Qed.

(** What the check does not depend on. *)
Lemma body_ir L m local p ir ir' size i : snd (ca_body L m local p ir size i) = Ok tt <-> snd (ca_body L m local p ir' size i) = Ok tt.
Proof. now rewrite !body_ok. Qed.
Lemma body_cp L m local p ir size i :
  snd (ca_body L (with_name "cp" m) local p ir size i) = Ok tt <-> snd (ca_body L (with_name "ip" m) local p ir size i) = Ok tt.
Proof.
  rewrite !body_ok. unfold first_fits, pubs_fit, response_body, key_fits, without_key, with_key, certified, no_pair, pair_at. cbn [with_name b_name b_pvno b_resps b_pubs b_extra].
  split; intros (B & Sz & Id & s & F0 & X); (split; [auto|]; split; [exact Sz|]; split; [exact Id|]; exists s; split; [exact F0|]).
  - destruct X as [(G & Fa & C & [N | (c & Cc & F)] & K) | X]; [left | left | now right]; repeat (split; [eassumption|]).
    + split; [now left | exact K].
    + split; [|exact K]. right. exists c. split; [exact Cc|]. intros ps P. destruct (F ps P) as (_ & Y). split; [discriminate | exact Y].
  - destruct X as [(G & Fa & C & [N | (c & Cc & F)] & K) | X]; [left | left | now right]; repeat (split; [eassumption|]).
    + split; [now left | exact K].
    + split; [|exact K]. right. exists c. split; [exact Cc|]. intros ps P. destruct (F ps P) as (_ & Y). split; [discriminate | exact Y].
Qed.
Lemma body_status L m m' local p ir size i : i <> 0%nat -> with_status m m' i ->
  snd (ca_body L m local p ir size i) = Ok tt -> snd (ca_body L m' local p ir size i) = Ok tt.
Proof.
  intros N (W1 & W2 & W3 & W4 & W5 & W6 & W7) H. apply body_ok in H. destruct H as (B & Sz & (r & R & I') & s & F0 & X).
  destruct (W7 r R) as (r' & R' & I2 & P2).
  assert (PA : forall j k, pair_at m' j k <-> pair_at m j k).
  { intros j k. unfold pair_at. destruct (Nat.eq_dec j i) as [->|J].
    - rewrite R, R'. split; intros (y & E & P); injection E as <-; eexists; (split; [reflexivity|]); congruence.
    - now rewrite W6. }
  apply body_ok. unfold response_body in *. rewrite W1. split; [exact B|]. split; [congruence|]. split; [exists r'; split; [exact R' | congruence]|].
  exists s. split; [rewrite W6; auto|].
  assert (Ce : forall j c, certified m j c -> certified m' j c) by (intros j c (k & K1 & K2); exists k; split; [now apply PA | exact K2]).
  assert (NP : forall j, no_pair m j -> no_pair m' j) by (intros j Q k K; apply Q; now apply PA).
  destruct X as [(G & Fa & (c & C) & Fi & K) | (Rj & Np & P)].
  - left. split; [exact G|]. split; [exact Fa|]. split; [eauto|]. split.
    + destruct Fi as [(Np & P) | (c0 & C0 & F)]; [left; split; [auto | congruence]|]. right. exists c0. split; [auto|]. unfold pubs_fit in *. rewrite W1, W3, W4. exact F.
    + unfold key_fits in *. destruct local.
      * intros k Q. apply K. now apply PA.
      * destruct K as (e & (k & K1 & K2) & V). exists e. split; [exists k; split; [now apply PA | exact K2]|]. now rewrite W2.
  - right. split; [exact Rj|]. split; [auto | congruence].
Qed.

Lemma cross_ok L m t kem : snd (cross_response L m t kem) = Ok tt <->
  b_name m = "ccp" /\ (exists x, t = Ok x /\ x <> "mac") /\ kem = false /\ b_extra m <> [] /\
  exists r, b_resps m = [r] /\ p_id r = 0 /\
  ((granted (p_status r) /\ p_fail r = false /\ (exists c, certified m 0 c /\ pubs_fit L m c) /\ without_key m 0) \/
   (p_status r = "rejection" /\ no_pair m 0 /\ b_pubs m = None)).
Proof.
  unfold cross_response. destruct (String.eqb_spec (b_name m) "ccp") as [B|B]; cbn [negb].
  2:{ cbn [snd]. split; [discriminate | intros (H & _); contradiction]. }
  destruct (b_resps m) as [|r [|r' l]] eqn:R; cbn [length Nat.eqb negb].
  1,3: cbn [snd]; split; [discriminate | intros (_ & _ & _ & _ & r0 & H & _); discriminate].
  destruct t as [x|e]; [|cbn [snd]; split; [discriminate | intros (_ & (x & H & _) & _); discriminate]].
  destruct (String.eqb_spec x "mac") as [X|X]; cbn [orb].
  { cbn [snd]. split; [discriminate | intros (_ & (y & H & N) & _); congruence]. }
  destruct kem; [cbn [snd]; split; [discriminate | intros (_ & _ & H & _); discriminate]|].
  destruct (b_extra m) as [|e0 el] eqn:E; cbn [length Nat.eqb].
  { cbn [snd]. split; [discriminate | intros (_ & _ & _ & H & _); contradiction]. }
  rewrite body_ok, R. cbn [nth_error length]. split.
  - intros (_ & _ & (r0 & H & I') & s & H' & Y). injection H as <-. injection H' as <-. split; [exact B|]. split; [eauto|]. split; [reflexivity|]. split; [discriminate|].
    exists r. split; [reflexivity|]. split; [exact I'|]. destruct Y as [(G & Fa & (c & C) & Fi & K) | Y]; [left | now right].
    split; [exact G|]. split; [exact Fa|]. split; [|exact K]. destruct Fi as [(N & _) | Fi]; [|exact Fi]. apply coe_gone in N. apply coe_plain in C. congruence.
  - intros (_ & _ & _ & _ & r0 & H & I' & Y). injection H as <-. split; [right; right; now right|]. split; [reflexivity|]. split; [eauto|]. exists r. split; [reflexivity|].
    destruct Y as [(G & Fa & (c & C & F) & K) | Y]; [left | now right]. split; [exact G|]. split; [exact Fa|]. split; [eauto|]. split; [right; eauto | exact K].
Qed.

Lemma confirmation_ok conf ca extra caching req rt mac sig :
  pki_confirmation conf ca extra caching req rt mac sig = Ok tt <->
  conf = "pkiconf" /\ (extra = true \/ caching = true) /\ (ca = "ip" \/ ca = "cp" \/ ca = "rp" \/ ca = "kup") /\
  ((exists q, req = Some (Ok q) /\ ((q = "mac" /\ mac = Ok tt) \/ (q <> "mac" /\ sig = Ok tt))) \/
   (req = None /\ exists q, rt = Ok q /\ q <> "mac" /\ sig = Ok tt)).
Proof.
  unfold pki_confirmation. split.
  - intros H. step H g1 G1. step H g2 G2. step H g3 G3. step H t T. apply guard_iff, String.eqb_eq in G1. apply guard_iff, orb_true_iff in G2. apply guard_iff, str_mem_In in G3. cbn [In] in G3.
    split; [exact G1|]. split; [exact G2|]. split; [intuition congruence|]. destruct (String.eqb_spec t "mac") as [M|M].
    + destruct req as [q|]; [|discriminate]. subst q t. left. eauto 6.
    + destruct req as [q|]; [left; subst q; eauto 6 | right; eauto 6].
  - intros (-> & E & C & X). cbn [String.eqb Ascii.eqb Bool.eqb guard bind].
    assert (G2 : extra || caching = true) by (now apply orb_true_iff). rewrite G2. cbn [guard bind].
    assert (G3 : str_mem ca ["ip"; "cp"; "rp"; "kup"] = true) by (apply str_mem_In; cbn [In]; intuition congruence). rewrite G3. cbn [guard bind].
    destruct X as [(q & -> & [(-> & M) | (N & M)]) | (-> & q & -> & N & M)]; cbn [bind].
    + exact M.
    + rewrite (proj2 (String.eqb_neq _ _) N). exact M.
    + rewrite (proj2 (String.eqb_neq _ _) N). exact M.
Qed.
