(** Proofs about related certificates and certificate discovery. *)
From Coq Require Import String Lia.
From Verif Require Import Prelude PreludeFacts ProtTab CertChainModel BitModel RelModel RelSpec.
From Verif Require Import ProtMac ChamProofs EnvlProofs CatProofs.
From Verif Require SdModel SdProofs.
Open Scope string_scope.
Open Scope Z_scope.
Open Scope list_scope.

Lemma guard_true b e (x : unit) : guard b e = Ok x <-> b = true.
Proof. destruct b, x; cbn; split; congruence. Qed.
Lemma nil_true (l : bytes) : match l with [] => true | _ => false end = true <-> l = [].
Proof. destruct l; split; congruence. Qed.
Lemma eq_str a b : String.eqb a b = true <-> a = b. Proof. apply String.eqb_eq. Qed.

(** ** First occurrences *)

Lemma ext_some l o e : get_extension l o = Some e <-> first_ext l o e.
Proof.
  induction l as [|y r IH]; cbn [get_extension].
  - split; [discriminate|]. intros (p & q & E & _). destruct p; discriminate E.
  - destruct (String.eqb (x_id y) o) eqn:Y.
    + apply eq_str in Y. split.
      * intros H. assert (y = e) as <- by congruence. exists [], r. split; [reflexivity|]. split; [exact Y|]. intros z [].
      * intros (p & q & E & Z & N). destruct p as [|z p]; [injection E as <- _; reflexivity|]. injection E as <- _. destruct (N y (or_introl eq_refl)). exact Y.
    + assert (x_id y <> o) as Y' by (intros C; apply eq_str in C; congruence). rewrite IH. split.
      * intros (p & q & -> & Z & N). exists (y :: p), q. split; [reflexivity|]. split; [exact Z|]. intros z [<-|I]; [exact Y'|exact (N z I)].
      * intros (p & q & E & Z & N). destruct p as [|z p]; injection E as ? ?; subst; [contradiction|]. exists p, q. split; [reflexivity|]. split; [reflexivity|]. intros t I. apply N. right. exact I.
Qed.
Lemma ext_none l o : get_extension l o = None <-> no_ext l o.
Proof.
  induction l as [|y r IH]; cbn [get_extension]; [split; [intros _ z []|reflexivity]|]. destruct (String.eqb (x_id y) o) eqn:Y.
  - apply eq_str in Y. split; [discriminate|]. intros N. destruct (N y (or_introl eq_refl) Y).
  - rewrite IH. split; [|intros N z I; apply N; right; exact I]. intros N z [<-|I]; [|exact (N z I)]. intros C. apply eq_str in C. congruence.
Qed.
Lemma attr_some l o e : get_attribute l o = Some e <-> first_attr l o e.
Proof.
  induction l as [|y r IH]; cbn [get_attribute].
  - split; [discriminate|]. intros (p & q & E & _). destruct p; discriminate E.
  - destruct (String.eqb (SdModel.t_type y) o) eqn:Y.
    + apply eq_str in Y. split.
      * intros H. assert (y = e) as <- by congruence. exists [], r. split; [reflexivity|]. split; [exact Y|]. intros z [].
      * intros (p & q & E & Z & N). destruct p as [|z p]; [injection E as <- _; reflexivity|]. injection E as <- _. destruct (N y (or_introl eq_refl)). exact Y.
    + assert (SdModel.t_type y <> o) as Y' by (intros C; apply eq_str in C; congruence). rewrite IH. split.
      * intros (p & q & -> & Z & N). exists (y :: p), q. split; [reflexivity|]. split; [exact Z|]. intros z [<-|I]; [exact Y'|exact (N z I)].
      * intros (p & q & E & Z & N). destruct p as [|z p]; injection E as ? ?; subst; [contradiction|]. exists p, q. split; [reflexivity|]. split; [reflexivity|]. intros t I. apply N. right. exact I.
Qed.
Lemma attr_none l o : get_attribute l o = None <-> no_attr l o.
Proof.
  induction l as [|y r IH]; cbn [get_attribute]; [split; [intros _ z []|reflexivity]|]. destruct (String.eqb (SdModel.t_type y) o) eqn:Y.
  - apply eq_str in Y. split; [discriminate|]. intros N. destruct (N y (or_introl eq_refl) Y).
  - rewrite IH. split; [|intros N z I; apply N; right; exact I]. intros N z [<-|I]; [|exact (N z I)]. intros C. apply eq_str in C. congruence.
Qed.

(** ** Hashes *)

Lemma hash_iff L h c n : hash_for L h c = Ok n <-> hash_of L h c n.
Proof.
  unfold hash_for, hash_of. destruct h as [x|].
  - split; [intros H; left; congruence|]. intros [H|[[H _]|[H _]]]; congruence.
  - destruct (get_hash_from_oid (SdModel.g_oid (l_sigalg L c)) true) as [[x|]|e]; cbn [bind].
    + split; [intros H; right; left; split; congruence|]. intros [H|[[_ H]|[_ [H _]]]]; congruence.
    + split; [intros H; right; right; repeat split; assumption|]. intros [H|[[_ H]|[_ [_ H]]]]; congruence.
    + split; [discriminate|]. intros [H|[[_ H]|[_ [H _]]]]; congruence.
Qed.
Lemma hash_fun L h c n n' : hash_of L h c n -> hash_of L h c n' -> n = n'.
Proof. intros H H'. apply hash_iff in H, H'. congruence. Qed.
Lemma digest_iff L n r x : cert_hash L n r = Ok x <-> digest_of L n r x.
Proof.
  unfold cert_hash, digest_of. destruct (hash_name_to_instance n) as [m|e]; cbn [bind].
  - split; [intros H; exists m; split; congruence|]. intros (m' & H & ->). congruence.
  - split; [discriminate|]. intros (m' & H & _). discriminate H.
Qed.
Lemma nil_dec (l : bytes) e (x : unit) : guard (match l with [] => true | _ => false end) e = Ok x <-> l = [].
Proof. rewrite guard_true. destruct l; split; congruence. Qed.
Lemma holds_iff L a s : related_hash L a = Ok (Some s) <-> holds L a s.
Proof.
  unfold related_hash, holds. destruct (get_extension (l_exts L a) RELATED) as [e|] eqn:E.
  - apply ext_some in E. destruct (l_octdec L (x_val e)) as [[b rest]|] eqn:D.
    + split.
      * intros H. bd H as [], G. apply nil_true in G. assert (b = s) as -> by (injection H as H; exact H). subst rest. exists e. split; assumption.
      * intros (e' & F & D'). apply ext_some in E, F. assert (e' = e) as -> by congruence. rewrite D in D'. injection D' as -> ->. reflexivity.
    + split; [discriminate|]. intros (e' & F & D'). apply ext_some in E, F. assert (e' = e) as -> by congruence. congruence.
  - split; [discriminate|]. intros (e' & F & _). apply ext_some in F. congruence.
Qed.
Lemma none_iff L a : related_hash L a = Ok None <-> no_ext (l_exts L a) RELATED.
Proof.
  unfold related_hash. rewrite <- ext_none. destruct (get_extension (l_exts L a) RELATED) as [e|]; [|split; reflexivity].
  destruct (l_octdec L (x_val e)) as [[b rest]|]; [|split; discriminate]. destruct rest; split; discriminate.
Qed.
Lemma beq_iff a b : bytes_eqb a b = true <-> a = b. Proof. apply bytes_eqb_iff. Qed.

(** ** The extension *)

Lemma validate_ext_iff L a r h : validate_extension L a r h = Ok tt
  <-> names_cert L a h r /\ validate_ku_and_eku_related_cert (l_usages L a) (l_usages L r) = Ok tt.
Proof.
  unfold validate_extension, names_cert. split.
  - intros H. apply bind_inv in H. destruct H as (s & A & H). bd H as [], B. 
    apply bind_inv in H. destruct H as (n & C & H). apply bind_inv in H. destruct H as (x & D & H). bd H as [], F. apply beq_iff in F. subst x.
    split; [|exact H]. destruct s as [s|]; [|discriminate B]. exists s, n. split; [apply holds_iff, A|]. split; [|split; [apply hash_iff, C|apply digest_iff, D]].
    intros ->. discriminate B.
  - intros ((s & n & A & B & C & D) & H). apply holds_iff in A. apply hash_iff in C. apply digest_iff in D. rewrite A. cbn [bind].
    assert (negb (bytes_eqb s []) = true) as ->. { destruct (bytes_eqb s []) eqn:E; [|reflexivity]. apply beq_iff in E. contradiction. }
    cbn [guard bind]. rewrite C. cbn [bind]. rewrite D. cbn [bind]. rewrite (proj2 (beq_iff s s) eq_refl). exact H.
Qed.
Lemma names_unique L a h r r' : collision_free L -> names_cert L a h r -> names_cert L a h r' -> c_der r = c_der r'.
Proof.
  intros F (s & n & A & _ & C & (m & M & D)) (s' & n' & A' & _ & C' & (m' & M' & D')).
  apply holds_iff in A, A'. assert (s' = s) as -> by congruence. assert (n' = n) as -> by exact (hash_fun _ _ _ _ _ C' C).
  assert (m' = m) as -> by congruence. apply (F m). congruence.
Qed.
Lemma prepared_names L r h crit e a h' n : codecs L -> prepare_extension L r h crit = Ok e -> first_ext (l_exts L a) RELATED e ->
  hash_of L h r n -> hash_of L h' a n -> (forall m x, l_hash L m x <> []) -> names_cert L a h' r.
Proof.
  intros W P F H H' N. unfold prepare_extension in P. apply bind_inv in P. destruct P as (n' & A & P). apply bind_inv in P. destruct P as (x & B & P).
  apply hash_iff in A. assert (n' = n) as -> by exact (hash_fun _ _ _ _ _ A H). apply digest_iff in B. injection P as <-.
  exists x, n. split; [exists {| x_id := RELATED; x_crit := crit; x_val := l_octenc L x |}; split; [exact F|apply (w_oct L W)]|].
  split; [destruct B as (m & _ & ->); apply N|]. split; assumption.
Qed.
(** The digest made by another algorithm. *)
Lemma prepared_other L r h crit e a h' n n' : codecs L -> prepare_extension L r h crit = Ok e -> first_ext (l_exts L a) RELATED e ->
  hash_of L h r n -> hash_of L h' a n' -> (forall m x, l_hash L m x <> []) ->
  (forall x y, digest_of L n r x -> digest_of L n' r y -> x <> y) -> (exists y, digest_of L n' r y) -> validate_extension L a r h' = Err EValueError.
Proof.
  intros W P F H H' N X (y & Y). unfold prepare_extension in P. apply bind_inv in P. destruct P as (n1 & A & P). apply bind_inv in P. destruct P as (x & B & P).
  apply hash_iff in A. assert (n1 = n) as -> by exact (hash_fun _ _ _ _ _ A H). apply digest_iff in B. injection P as <-.
  assert (holds L a x) as G by (eexists; split; [exact F|apply (w_oct L W)]). apply holds_iff in G. unfold validate_extension. rewrite G. cbn [bind].
  assert (negb (bytes_eqb x []) = true) as ->. { destruct (bytes_eqb x []) eqn:E; [|reflexivity]. apply beq_iff in E. destruct B as (m & _ & B). rewrite B in E. destruct (N _ _ E). }
  cbn [guard bind]. apply hash_iff in H'. rewrite H'. cbn [bind]. pose proof (X _ _ B Y) as Z. apply digest_iff in Y. rewrite Y. cbn [bind].
  destruct (bytes_eqb y x) eqn:E; [apply beq_iff in E; congruence|reflexivity].
Qed.
Lemma find_hash_iff L h s certs r : find_hash L h s certs = Ok r
  <-> digest_of L h r s /\ exists p q, certs = p ++ r :: q /\ forall c, In c p -> ~ digest_of L h c s.
Proof.
  induction certs as [|c l IH]; cbn [find_hash].
  - split; [discriminate|]. intros (_ & p & q & E & _). destruct p; discriminate E.
  - destruct (cert_hash L h c) as [x|e] eqn:X; cbn [bind].
    + destruct (bytes_eqb x s) eqn:E.
      * apply beq_iff in E. subst x. apply digest_iff in X. split.
        -- intros H. assert (c = r) as <- by congruence. split; [exact X|]. exists [], l. split; [reflexivity|]. intros z [].
        -- intros (_ & p & q & E & N). destruct p as [|z p]; [injection E as <- _; reflexivity|]. injection E as <- _. destruct (N c (or_introl eq_refl) X).
      * assert (~ digest_of L h c s) as Y. { intros Y. apply digest_iff in Y. rewrite X in Y. injection Y as ->. rewrite (proj2 (beq_iff s s) eq_refl) in E. discriminate E. }
        rewrite IH. split.
        -- intros (D & p & q & -> & N). split; [exact D|]. exists (c :: p), q. split; [reflexivity|]. intros z [<-|I]; [exact Y|exact (N z I)].
        -- intros (D & p & q & E' & N). split; [exact D|]. destruct p as [|z p]; injection E' as ? ?; subst; [contradiction|].
           exists p, q. split; [reflexivity|]. intros t I. apply N. right. exact I.
    + split; [discriminate|]. intros ((m & M & _) & _). unfold cert_hash in X. rewrite M in X. discriminate X.
Qed.
Lemma find_iff L certs a r : find_related L certs a = Ok r
  <-> exists s n p q, holds L a s /\ hash_of L None a n /\ digest_of L n r s /\ certs = p ++ r :: q /\ forall c, In c p -> ~ digest_of L n c s.
Proof.
  unfold find_related. split.
  - intros H. apply bind_inv in H. destruct H as (n & A & H). apply bind_inv in H. destruct H as ([s|] & B & H); [|discriminate H].
    apply find_hash_iff in H. destruct H as (D & p & q & E & N). exists s, n, p, q. split; [apply holds_iff, B|]. split; [apply hash_iff, A|]. split; [exact D|]. split; assumption.
  - intros (s & n & p & q & A & B & C & D & E). apply holds_iff in A. apply hash_iff in B. rewrite B. cbn [bind]. rewrite A. cbn [bind]. apply find_hash_iff.
    split; [exact C|]. exists p, q. split; assumption.
Qed.
Lemma find_none L certs a s n m : holds L a s -> hash_of L None a n -> hash_name_to_instance n = Ok m ->
  (forall c, In c certs -> l_hash L m (c_der c) <> s) -> find_related L certs a = Err EValueError.
Proof.
  intros A B M N. apply holds_iff in A. apply hash_iff in B. unfold find_related. rewrite B. cbn [bind]. rewrite A. cbn [bind].
  induction certs as [|c l IH]; [reflexivity|]. cbn [find_hash]. unfold cert_hash at 1. rewrite M. cbn [bind].
  destruct (bytes_eqb (l_hash L m (c_der c)) s) eqn:E; [apply beq_iff in E; destruct (N c (or_introl eq_refl) E)|]. apply IH. intros z I. apply N. right. exact I.
Qed.

(** ** The request *)

Lemma located_iff L uri b l : load_uri L uri b = Ok l <-> located L uri b l.
Proof.
  unfold load_uri, located. destruct (String.eqb uri "") eqn:E.
  - apply eq_str in E. subst uri. cbn [bind]. split; [destruct b; discriminate|]. intros [N _]. congruence.
  - assert (uri <> "") as N by (intros C; apply eq_str in C; congruence). destruct (l_get L uri) as [d|x]; cbn [bind].
    + destruct b.
      * destruct d as [|z d].
        -- split; [discriminate|]. intros (_ & b' & H & H' & _). congruence.
        -- split; [intros H; split; [exact N|]; exists (z :: d); split; [reflexivity|split; [discriminate|exact H]]|].
           intros (_ & b' & H & _ & H'). injection H as <-. exact H'.
      * destruct (l_certdec L d) as [[c rest]|] eqn:D.
        -- split.
           ++ intros H. bd H as [], G. apply nil_true in G. subst rest. injection H as <-. split; [exact N|]. exists d. split; [reflexivity|]. exists c. split; [exact D|reflexivity].
           ++ intros (_ & b' & H & c' & H' & ->). assert (b' = d) as -> by (injection H as H; congruence). rewrite D in H'. injection H' as -> ->. reflexivity.
        -- split; [discriminate|]. intros (_ & b' & H & c' & H' & _). assert (b' = d) as -> by (injection H as H; congruence). congruence.
    + split; [destruct b; discriminate|]. intros (_ & b' & H & _). discriminate H.
Qed.
Lemma requests_iff L attrs q : extract_request L attrs = Ok q <-> requests L attrs q.
Proof.
  unfold extract_request, requests. destruct (get_attribute attrs REQUEST) as [a|] eqn:A.
  - apply attr_some in A. destruct (SdModel.t_vals a) as [|v [|v' w]] eqn:V.
    + split; [discriminate|]. intros (a' & v & rest & A' & V' & _). apply attr_some in A, A'. assert (a' = a) as -> by congruence. congruence.
    + destruct (l_reqdec L v) as [[q' rest]|] eqn:D.
      * split; [intros H; assert (q' = q) as -> by congruence; exists a, v, rest; repeat split; assumption|].
        intros (a' & v' & rest' & A' & V' & D'). apply attr_some in A, A'. assert (a' = a) as -> by congruence. assert (v' = v) as -> by congruence. congruence.
      * split; [discriminate|]. intros (a' & v' & rest' & A' & V' & D'). apply attr_some in A, A'. assert (a' = a) as -> by congruence. assert (v' = v) as -> by congruence. congruence.
    + split; [discriminate|]. intros (a' & u & rest & A' & V' & _). apply attr_some in A, A'. assert (a' = a) as -> by congruence. congruence.
  - split; [discriminate|]. intros (a' & v & rest & A' & _). apply attr_some in A'. congruence.
Qed.
Lemma requests_fun L attrs q q' : requests L attrs q -> requests L attrs q' -> q = q'.
Proof. intros H H'. apply requests_iff in H, H'. congruence. Qed.
Lemma possessed_iff L c q h : verify_pop L c q h = Ok tt <-> possessed L c q h.
Proof.
  unfold verify_pop, possessed, data_to_sign. split.
  - intros H. apply bind_inv in H. destruct H as (k & A & H). apply bind_inv in H. destruct H as (n & B & H). bd H as [], C. 
    exists k, n. split; [exact A|]. split; [exact C|]. split; [apply hash_iff, B|].
    destruct (l_verify L k (l_timeenc L (q_time q) ++ l_idenc L (q_issuer q) (q_serial q)) (q_sig q) n) as [[]|e]; [reflexivity|destruct e; discriminate H].
  - intros (k & n & A & B & C & D). apply hash_iff in C. rewrite A. cbn [bind]. rewrite C. cbn [bind]. rewrite B. cbn [guard bind]. rewrite D. reflexivity.
Qed.
Lemma pop_iff L now attrs max b h l : validate_pop L now attrs max b h = Ok l
  <-> exists q c rest, l = c :: rest /\ requests L attrs q /\ proved_by L now q max b h c rest.
Proof.
  unfold validate_pop, proved_by. split.
  - intros H. apply bind_inv in H. destruct H as (q & A & H). bd H as [], B. bd H as [], C. apply Bool.negb_true_iff, Z.ltb_ge in B, C.
    apply bind_inv in H. destruct H as (chain & D & H). destruct chain as [|c rest]; [discriminate H|].
    bd H as [], F. unfold check_id in F. bd F as [], G. apply beq_iff in G. apply guard_true, Z.eqb_eq in F. bd H as [], I. apply possessed_iff in I.
    injection H as <-. exists q, c, rest. split; [reflexivity|]. split; [apply requests_iff, A|]. split; [lia|]. split; [apply located_iff, D|]. split; [exact G|]. split; assumption.
  - intros (q & c & rest & -> & A & B & D & G & F & I). apply requests_iff in A. apply located_iff in D. apply possessed_iff in I. rewrite A. cbn [bind].
    rewrite (proj2 (Z.ltb_ge now (q_time q))) by lia. cbn [negb guard bind]. rewrite (proj2 (Z.ltb_ge max (now - q_time q))) by lia. cbn [negb guard bind].
    rewrite D. cbn [bind]. unfold check_id. rewrite (proj2 (beq_iff _ _) G). cbn [guard bind]. rewrite (proj2 (Z.eqb_eq _ _) F). cbn [guard bind]. rewrite I. reflexivity.
Qed.
Lemma prepare_iff L now c k uri bad h bs bi fr time q : prepare_requester L now c k uri bad h bs bi fr time = Ok q ->
  exists n s, q_time q = (match time with Some t => if t =? 0 then now + fr else t | None => now + fr end) /\ 0 <= q_time q
    /\ (if bi then l_other_issuer L c else Ok (c_issuer c)) = Ok (q_issuer q) /\ q_serial q = (if bs then c_serial c + 1 else c_serial c)
    /\ q_uri q = uri /\ hash_of L h c n /\ l_sign L k (l_timeenc L (q_time q) ++ l_idenc L (q_issuer q) (q_serial q)) n = Ok s
    /\ (if bad then l_spoil L s k else Ok s) = Ok (q_sig q).
Proof.
  unfold prepare_requester, data_to_sign. intros H. bd H as [], A. apply Z.leb_le in A. apply bind_inv in H. destruct H as (i & B & H).
  apply bind_inv in H. destruct H as (n & C & H). apply bind_inv in H. destruct H as (s & D & H). apply bind_inv in H. destruct H as (s' & F & H). injection H as <-.
  cbn [q_time q_issuer q_serial q_uri q_sig]. exists n, s. apply hash_iff in C. repeat split; assumption.
Qed.
Lemma add_request_requests L attrs q : codecs L -> no_attr attrs REQUEST -> requests L (add_request L attrs q) q.
Proof.
  intros W N. exists {| SdModel.t_type := REQUEST; SdModel.t_vals := [l_reqenc L q] |}, (l_reqenc L q), []. split; [|split; [reflexivity|apply (w_req L W)]].
  exists attrs, []. split; [reflexivity|]. split; [reflexivity|exact N].
Qed.
Lemma round_trip L now c k uri h fr time attrs q now' max b rest : codecs L -> key_of L k c -> no_attr attrs REQUEST ->
  prepare_requester L now c k uri false h false false fr time = Ok q -> q_time q <= now' <= q_time q + max -> located L uri b (c :: rest) ->
  validate_pop L now' (add_request L attrs q) max b h = Ok (c :: rest).
Proof.
  intros W (p & P1 & P2 & P3) N H T G. apply prepare_iff in H. destruct H as (n & s & _ & _ & I & S & U & Hn & Sg & Q). apply pop_iff.
  exists q, c, rest. split; [reflexivity|]. split; [apply add_request_requests; assumption|]. split; [exact T|]. split; [rewrite U; exact G|].
  split; [congruence|]. split; [exact S|]. exists p, n. split; [exact P1|]. split; [exact P2|]. split; [exact Hn|]. injection Q as <-. apply P3, Sg.
Qed.
Lemma pop_refused L now attrs max b h q c rest : requests L attrs q -> located L (q_uri q) b (c :: rest) ->
  (now < q_time q \/ q_time q + max < now \/ q_issuer q <> c_issuer c \/ q_serial q <> c_serial c \/ ~ possessed L c q h) ->
  forall l, validate_pop L now attrs max b h <> Ok l.
Proof.
  intros R G D l H. apply pop_iff in H. destruct H as (q' & c' & rest' & -> & R' & T & G' & I & S & P). assert (q' = q) as -> by exact (requests_fun _ _ _ _ R' R).
  apply located_iff in G, G'. rewrite G in G'. injection G' as -> ->. destruct D as [D|[D|[D|[D|D]]]]; [lia|lia|contradiction|contradiction|contradiction].
Qed.
Lemma pop_error L now attrs max b h q c rest e : requests L attrs q -> located L (q_uri q) b (c :: rest) -> q_time q <= now <= q_time q + max ->
  q_issuer q = c_issuer c -> q_serial q = c_serial c -> forall k n, l_load L c = Ok k -> l_verifies L k = true -> hash_of L h c n ->
  l_verify L k (l_timeenc L (q_time q) ++ l_idenc L (q_issuer q) (q_serial q)) (q_sig q) n = Err e ->
  e = EInvalidSignature \/ e = EInvalidAltSignature -> validate_pop L now attrs max b h = Err EBadPOP.
Proof.
  intros R G T I S k n K V Hn E Two. apply requests_iff in R. apply located_iff in G. apply hash_iff in Hn. unfold validate_pop. rewrite R. cbn [bind].
  rewrite (proj2 (Z.ltb_ge now (q_time q))) by lia. cbn [negb guard bind]. rewrite (proj2 (Z.ltb_ge max (now - q_time q))) by lia. cbn [negb guard bind].
  rewrite G. cbn [bind]. unfold check_id. rewrite (proj2 (beq_iff _ _) I). cbn [guard bind]. rewrite (proj2 (Z.eqb_eq _ _) S). cbn [guard bind].
  unfold verify_pop, data_to_sign. rewrite K. cbn [bind]. rewrite Hn. cbn [bind]. rewrite V. cbn [guard bind]. rewrite E. destruct Two as [-> | ->]; reflexivity.
Qed.
Lemma pop_time L now attrs max b h q : requests L attrs q -> now < q_time q \/ q_time q + max < now -> validate_pop L now attrs max b h = Err EBadTime.
Proof.
  intros R T. apply requests_iff in R. unfold validate_pop. rewrite R. cbn [bind]. destruct (now <? q_time q) eqn:A; [reflexivity|]. cbn [negb guard bind].
  apply Z.ltb_ge in A. rewrite (proj2 (Z.ltb_lt max (now - q_time q))) by lia. reflexivity.
Qed.
Lemma pop_replay L now attrs attrs' max b h : get_attribute attrs REQUEST = get_attribute attrs' REQUEST ->
  validate_pop L now attrs max b h = validate_pop L now attrs' max b h.
Proof. intros E. unfold validate_pop, extract_request. rewrite E. reflexivity. Qed.

(** ** The certificate request *)

Lemma ca_iff L l : is_ca L l = Ok false <-> not_ca L l.
Proof.
  unfold is_ca, not_ca. destruct (get_extension l BASIC) as [e|] eqn:E.
  - apply ext_some in E. destruct (l_bcdec L (x_val e)) as [[v r]|] eqn:D.
    + destruct r as [|z r].
      * split.
        -- intros H. right. exists e. split; [exact E|]. injection H as ->. exact D.
        -- intros [N|(e' & F & D')]; [apply ext_none in N; apply ext_some in E; congruence|]. apply ext_some in E, F. assert (e' = e) as -> by congruence. rewrite D in D'. injection D' as ->. reflexivity.
      * split; [discriminate|]. intros [N|(e' & F & D')]; [apply ext_none in N; apply ext_some in E; congruence|]. apply ext_some in E, F. assert (e' = e) as -> by congruence. rewrite D in D'. discriminate D'.
    + split; [discriminate|]. intros [N|(e' & F & D')]; [apply ext_none in N; apply ext_some in E; congruence|]. apply ext_some in E, F. assert (e' = e) as -> by congruence. congruence.
  - split; [intros _; left; apply ext_none, E|reflexivity].
Qed.
Lemma csr_some L attrs l : csr_extensions L attrs = Ok (Some l) <-> asks_exts L attrs l.
Proof.
  unfold csr_extensions, asks_exts. destruct (get_attribute attrs EXT_REQUEST) as [a|] eqn:A.
  - apply attr_some in A. destruct (SdModel.t_vals a) as [|v w] eqn:V.
    + split; [discriminate|]. intros (a' & v & more & rest & A' & V' & _). apply attr_some in A, A'. assert (a' = a) as -> by congruence. congruence.
    + destruct (l_extsdec L v) as [[x rest]|] eqn:D.
      * split; [intros H; assert (x = l) as -> by congruence; exists a, v, w, rest; repeat split; assumption|].
        intros (a' & v' & more & rest' & A' & V' & D'). apply attr_some in A, A'. assert (a' = a) as -> by congruence. assert (v' = v) as -> by congruence. congruence.
      * split; [discriminate|]. intros (a' & v' & more & rest' & A' & V' & D'). apply attr_some in A, A'. assert (a' = a) as -> by congruence. assert (v' = v) as -> by congruence. congruence.
  - split; [discriminate|]. intros (a' & v & more & rest & A' & _). apply attr_some in A'. congruence.
Qed.
Lemma csr_none L attrs : csr_extensions L attrs = Ok None <-> no_attr attrs EXT_REQUEST.
Proof.
  unfold csr_extensions. rewrite <- attr_none. destruct (get_attribute attrs EXT_REQUEST) as [a|]; [|split; reflexivity].
  destruct (SdModel.t_vals a) as [|v w]; [split; discriminate|]. destruct (l_extsdec L v) as [[x rest]|]; split; discriminate.
Qed.
Lemma last_split A (d : A) l : l <> [] -> exists p, l = p ++ [last l d].
Proof. intros H. exists (removelast l). apply app_removelast_last, H. Qed.
Lemma anchors_iff x r dir os b : certificates_are_trustanchors [last (x :: r) x] (Some dir) os b = Ok tt
  <-> anchored (x :: r) (dir ++ if b then os else []).
Proof.
  unfold certificates_are_trustanchors, load_truststore. set (an := dir ++ if b then os else []). split.
  - intros H. bd H as [], A. apply guard_true in H. cbn [forallb] in H. rewrite Bool.andb_true_r in H. unfold cert_in_list in H. apply existsb_exists in H.
    destruct H as (y & Y & E). apply beq_iff in E. destruct (last_split _ x (x :: r)) as (p & P); [discriminate|]. exists p, (last (x :: r) x), y. split; [exact P|]. split; assumption.
  - intros (p & c & y & E & Y & D). assert (last (x :: r) x = c) as -> by (rewrite E; apply last_last).
    destruct an as [|z an'] eqn:Z; [destruct Y|]. cbn [List.length Nat.eqb negb guard bind]. apply guard_true. cbn [forallb]. rewrite Bool.andb_true_r.
    apply existsb_exists. exists y. split; [exact Y|]. apply beq_iff, D.
Qed.
Lemma csr_iff L now attrs b max dir roots os allow crl ssl given a : validate_csr L now attrs b max dir roots os allow crl ssl given = Ok a
  <-> (forall l, asks_exts L attrs l -> not_ca L l) /\ ((exists l, asks_exts L attrs l) \/ no_attr attrs EXT_REQUEST)
      /\ exists q rest chain, requests L attrs q /\ proved_by L now q max b None a rest /\ not_ca L (l_exts L a)
           /\ chain_of L a rest b (dir ++ roots) given chain /\ anchored chain (dir ++ if allow then os else [])
           /\ (ssl = true -> l_openssl L chain crl = Ok tt).
Proof.
  unfold validate_csr. split.
  - intros H. apply bind_inv in H. destruct H as (l & A & H). apply bind_inv in H. destruct H as (v & B & H). bd H as [], C. destruct v; [discriminate C|].
    assert ((forall x, asks_exts L attrs x -> not_ca L x) /\ ((exists x, asks_exts L attrs x) \/ no_attr attrs EXT_REQUEST)) as [X1 X2].
    { destruct l as [l|].
      - split; [|left; exists l; apply csr_some, A]. intros x X. apply csr_some in X. assert (x = l) as -> by congruence. apply ca_iff, B.
      - split; [|right; exact (proj1 (csr_none L attrs) A)]. intros x X. apply csr_some in X. congruence. }
    split; [exact X1|]. split; [exact X2|]. clear A B C X1 X2 l.
    apply bind_inv in H. destruct H as (loaded & A & H). apply pop_iff in A. destruct A as (q & c & rest & -> & R & P).
    apply bind_inv in H. destruct H as (v & B & H). bd H as [], C. destruct v; [discriminate C|]. apply ca_iff in B.
    apply bind_inv in H. destruct H as (built & D & H). destruct (match given with Some g => g | None => built end) as [|x r] eqn:G; [discriminate H|].
    bd H as [], F. apply anchors_iff in F. bd H as [], I. injection H as ->. exists q, rest, (x :: r). split; [exact R|]. split; [exact P|]. split; [exact B|].
    split; [|split; [exact F|intros ->; exact I]]. unfold chain_of. destruct given as [g|].
    + split; [congruence|]. destruct b; [left; reflexivity|]. right. destruct rest; [right; exists built; exact D|left; discriminate].
    + subst built. destruct b; cbn [negb andb] in D; [congruence|]. destruct rest; [exact D|congruence].
  - intros (X1 & X2 & q & rest & chain & R & P & N & K & F & I). apply ca_iff in N.
    assert (exists l, csr_extensions L attrs = Ok l /\ match l with Some l => is_ca L l | None => Ok false end = Ok false) as (l & A & B).
    { destruct X2 as [(l & X)|X]; [exists (Some l); split; [apply csr_some, X|apply ca_iff, X1, X]|exists None; split; [apply csr_none, X|reflexivity]]. }
    rewrite A. cbn [bind]. rewrite B. cbn [bind negb guard].
    assert (validate_pop L now attrs max b None = Ok (a :: rest)) as -> by (apply pop_iff; exists q, a, rest; split; [reflexivity|split; assumption]).
    cbn [bind]. rewrite N. cbn [bind negb guard].
    assert (exists built, (if negb b && match rest with [] => true | _ => false end then build_chain_from_list (l_chain L) a (dir ++ roots) false else Ok (a :: rest)) = Ok built
             /\ match given with Some g => g | None => built end = chain) as (built & -> & E).
    { unfold chain_of in K. destruct given as [g|].
      - destruct K as [-> K]. destruct b; [eexists; split; reflexivity|]. destruct rest; [|eexists; split; reflexivity]. destruct K as [K|[K|(l' & K)]]; [discriminate K|congruence|]. exists l'. split; [exact K|reflexivity].
      - destruct b; [exists (a :: rest); split; [reflexivity|congruence]|]. destruct rest; [exists chain; split; [exact K|reflexivity]|exists (a :: c :: rest); split; [reflexivity|congruence]]. }
    cbn [bind]. rewrite E. destruct chain as [|x r]; [destruct F as (p & c & y & E' & _); destruct p; discriminate E'|].
    rewrite (proj2 (anchors_iff _ _ _ _ _) F). cbn [bind]. destruct ssl; [rewrite (I eq_refl)|]; reflexivity.
Qed.
Lemma server_never L now b r : server_check L now b r <> Ok tt.
Proof. unfold server_check. destruct b as [c|l]; [discriminate|]. cbn [bind]. destruct (get_extension l BASIC); discriminate. Qed.

(** ** Discovery *)

Lemma first_access_iff l a : first_access l = Some a <-> exists p q, l = p ++ a :: q /\ a_method a = DISCOVERY /\ forall y, In y p -> a_method y <> DISCOVERY.
Proof.
  induction l as [|y r IH]; cbn [first_access].
  - split; [discriminate|]. intros (p & q & E & _). destruct p; discriminate E.
  - destruct (String.eqb (a_method y) DISCOVERY) eqn:Y.
    + apply eq_str in Y. split.
      * intros H. assert (y = a) as <- by congruence. exists [], r. split; [reflexivity|]. split; [exact Y|]. intros z [].
      * intros (p & q & E & Z & N). destruct p as [|z p]; [injection E as <- _; reflexivity|]. injection E as <- _. destruct (N y (or_introl eq_refl)). exact Y.
    + assert (a_method y <> DISCOVERY) as Y' by (intros C; apply eq_str in C; congruence). rewrite IH. split.
      * intros (p & q & -> & Z & N). exists (y :: p), q. split; [reflexivity|]. split; [exact Z|]. intros z [<-|I]; [exact Y'|exact (N z I)].
      * intros (p & q & E & Z & N). destruct p as [|z p]; injection E as ? ?; subst; [contradiction|]. exists p, q. split; [reflexivity|]. split; [exact Z|]. intros t I. apply N. right. exact I.
Qed.
Lemma extract_iff L e index d : extract_descriptor L (AExt e) index = Ok d
  <-> exists sia rest a, l_siadec L (x_val e) = Some (sia, rest) /\ chosen sia index a /\ described L a d.
Proof.
  unfold extract_descriptor, described. destruct (l_siadec L (x_val e)) as [[sia rest]|] eqn:S.
  2: { split; [discriminate|]. intros (? & ? & ? & H & _). discriminate H. }
  split.
  - intros H. apply bind_inv in H. destruct H as (a & A & H). assert (chosen sia index a /\ a_method a = DISCOVERY) as [C M].
    { destruct index as [i|]; cbn [chosen].
      - destruct (nth_error sia i) as [x|]; [|discriminate A]. bd A as [], G. apply eq_str in G. assert (x = a) as -> by congruence. split; [reflexivity|exact G].
      - destruct (first_access sia) as [x|] eqn:F; [|discriminate A]. assert (x = a) as -> by congruence. apply first_access_iff in F. destruct F as (p & q & E & M & N). split; [exists p, q; split; assumption|exact M]. }
    exists sia, rest, a. split; [reflexivity|]. split; [exact C|]. split; [exact M|]. destruct (a_loc a) as [t v|]; [|discriminate H].
    bd H as [], G. apply eq_str in G. subst t. destruct (l_descdec L v) as [[d' r']|] eqn:D; [|discriminate H]. assert (d' = d) as -> by congruence.
    exists v, r'. split; [reflexivity|exact D].
  - intros (sia' & rest' & a & E & C & M & v & r' & Lc & D). injection E as <- <-.
    assert (match index with
            | Some i => match nth_error sia i with None => Err EIndexError | Some a => let! _ := guard (String.eqb (a_method a) DISCOVERY) EValueError in Ok a end
            | None => match first_access sia with Some a => Ok a | None => Err EValueError end end = Ok a) as ->.
    { destruct index as [i|]; cbn [chosen] in C.
      - rewrite C, (proj2 (eq_str _ _) M). reflexivity.
      - destruct C as (p & q & E & N). assert (first_access sia = Some a) as -> by (apply first_access_iff; exists p, q; split; [exact E|split; assumption]). reflexivity. }
    cbn [bind]. rewrite Lc, (proj2 (eq_str DESCRIPTOR DESCRIPTOR) eq_refl). cbn [guard bind]. rewrite D. reflexivity.
Qed.
Lemma prepared_extracts L url crit sig key other : codecs L ->
  extract_descriptor L (AExt (prepare_sia L url crit sig key other)) None = Ok (prepare_descriptor L url other sig key)
  /\ extract_descriptor L (AExt (prepare_sia L url crit sig key other)) (Some O) = Ok (prepare_descriptor L url other sig key).
Proof.
  intros W. set (a := {| a_method := DISCOVERY; a_loc := LOther DESCRIPTOR (l_descenc L (prepare_descriptor L url other sig key)) |}).
  assert (described L a (prepare_descriptor L url other sig key)) as D.
  { split; [reflexivity|]. exists (l_descenc L (prepare_descriptor L url other sig key)), []. split; [reflexivity|apply (w_desc L W)]. }
  split; apply extract_iff; exists [a], [], a; (split; [apply (w_sia L W)|]; split; [|exact D]).
  - exists [], []. split; [reflexivity|]. intros y [].
  - reflexivity.
Qed.
Lemma opt_eqb_iff a b : SdModel.opt_eqb a b = true <-> a = b.
Proof. destruct a, b; cbn; rewrite ?beq_iff; split; congruence. Qed.
Lemma alg_eqb_iff a b : SdModel.alg_eqb a b = true <-> a = b.
Proof. unfold SdModel.alg_eqb. rewrite Bool.andb_true_iff, eq_str, opt_eqb_iff. destruct a, b; cbn. split; [intros [-> ->]; reflexivity|intros H; injection H as -> ->; split; reflexivity]. Qed.
Lemma algs_iff L c d : check_algs L c d = Ok tt <-> fits_desc L c d.
Proof.
  unfold check_algs, fits_desc. split.
  - intros H. bd H as [], A. split; intros a E; rewrite E in *; [apply guard_true, alg_eqb_iff in A; exact A|apply guard_true, alg_eqb_iff in H; exact H].
  - intros [A B]. destruct (d_sig d) as [x|]; [rewrite (A x eq_refl), (proj2 (alg_eqb_iff _ _) eq_refl)|]; cbn [guard bind];
      (destruct (d_key d) as [y|]; [rewrite (B y eq_refl), (proj2 (alg_eqb_iff _ _) eq_refl)|]; reflexivity).
Qed.
Lemma discovery_iff L c : is_discovery L c = Ok true
  <-> exists e sia rest a, first_ext (l_exts L c) SIA e /\ l_siadec L (x_val e) = Some (sia, rest) /\ In a sia /\ a_method a = DISCOVERY.
Proof.
  unfold is_discovery. destruct (get_extension (l_exts L c) SIA) as [e|] eqn:E.
  - apply ext_some in E. destruct (l_siadec L (x_val e)) as [[sia rest]|] eqn:S.
    + split.
      * intros H. injection H as H. apply existsb_exists in H. destruct H as (a & A & H). apply eq_str in H. exists e, sia, rest, a. repeat split; assumption.
      * intros (e' & sia' & rest' & a & F & S' & A & M). apply ext_some in E, F. assert (e' = e) as -> by congruence. rewrite S in S'. injection S' as <- <-.
        f_equal. apply existsb_exists. exists a. split; [exact A|apply eq_str, M].
    + split; [discriminate|]. intros (e' & sia' & rest' & a & F & S' & _). apply ext_some in E, F. assert (e' = e) as -> by congruence. congruence.
  - split; [discriminate|]. intros (e' & ? & ? & ? & F & _). apply ext_some in F. congruence.
Qed.
Lemma discover_iff L c o : discover L c = Ok (Some o)
  <-> exists e sia rest a d, first_ext (l_exts L c) SIA e /\ l_siadec L (x_val e) = Some (sia, rest) /\ chosen sia None a /\ described L a d
        /\ located L (d_uri d) false [o].
Proof.
  unfold discover. split.
  - intros H. destruct (get_extension (l_exts L c) SIA) as [e|] eqn:E; [|discriminate H]. apply bind_inv in H. destruct H as (d & A & H).
    apply bind_inv in H. destruct H as (l & B & H). destruct l as [|x r]; [discriminate H|]. assert (x = o) as -> by congruence.
    apply extract_iff in A. destruct A as (sia & rest & a & A1 & A2 & A3). apply located_iff in B. exists e, sia, rest, a, d. split; [apply ext_some, E|].
    split; [exact A1|]. split; [exact A2|]. split; [exact A3|]. destruct B as (N & b & G & c' & D & F). split; [exact N|]. exists b. split; [exact G|]. exists c'. split; [exact D|congruence].
  - intros (e & sia & rest & a & d & E & A1 & A2 & A3 & B). apply ext_some in E. apply located_iff in B. rewrite E.
    assert (extract_descriptor L (AExt e) None = Ok d) as -> by (apply extract_iff; exists sia, rest, a; split; [exact A1|split; assumption]). cbn [bind]. rewrite B. reflexivity.
Qed.
Lemma discovery_never L p i s ssl crl dir : validate_discovery L p i s ssl crl dir = Err ETypeError.
Proof. reflexivity. Qed.

(** ** Consequences *)

Lemma prepared_validates L r h crit e a h' n : codecs L -> (forall m x, l_hash L m x <> []) -> prepare_extension L r h crit = Ok e ->
  first_ext (l_exts L a) RELATED e -> hash_of L h r n -> hash_of L h' a n ->
  validate_ku_and_eku_related_cert (l_usages L a) (l_usages L r) = Ok tt -> validate_extension L a r h' = Ok tt.
Proof. intros C F P X H H' U. apply validate_ext_iff. split; [|exact U]. exact (prepared_names L r h crit e a h' n C P X H H' F). Qed.
Lemma find_hash_total L n m s certs r : hash_name_to_instance n = Ok m -> In r certs -> digest_of L n r s -> exists x, find_hash L n s certs = Ok x.
Proof.
  intros M. induction certs as [|c cs IH]; intros I D; [destruct I|]. cbn [find_hash]. unfold cert_hash. rewrite M. cbn [bind].
  destruct (bytes_eqb (l_hash L m (c_der c)) s) eqn:E; [eexists; reflexivity|]. destruct I as [-> | I]; [|exact (IH I D)].
  destruct D as (m' & M' & ->). assert (m = m') by congruence. subst. assert (bytes_eqb (l_hash L m' (c_der r)) (l_hash L m' (c_der r)) = true) by (apply beq_iff; reflexivity).
  congruence.
Qed.
Lemma named_found L certs a r : collision_free L -> names_cert L a None r -> In r certs ->
  exists x, find_related L certs a = Ok x /\ In x certs /\ c_der x = c_der r.
Proof.
  intros C (s & n & H & N & Hn & D) I. destruct D as (m & M & D). destruct (find_hash_total L n m s certs r M I) as (x & X). { exists m. split; assumption. }
  assert (find_related L certs a = Ok x) as F.
  { unfold find_related. apply hash_iff in Hn. rewrite Hn. cbn [bind]. apply holds_iff in H. rewrite H. cbn [bind]. exact X. }
  exists x. split; [exact F|]. apply find_hash_iff in X. destruct X as ((m' & M' & D') & p & q & E & _). split; [rewrite E; apply in_elt|].
  assert (m' = m) by congruence. subst m'. apply (C m). congruence.
Qed.
Lemma moved L now q u max b h l : codecs L -> validate_pop L now (add_request L [] q) max b h = Ok l -> located L u b l ->
  validate_pop L now (add_request L [] (at_uri q u)) max b h = Ok l.
Proof.
  intros C H U. apply pop_iff in H. destruct H as (q' & c & rest & -> & R & T & _ & I & S & P).
  assert (q' = q) by (refine (requests_fun _ _ _ _ R (add_request_requests L [] q C _)); intros y []). subst q'.
  apply pop_iff. exists (at_uri q u), c, rest. split; [reflexivity|]. split; [apply add_request_requests; [exact C|intros y []]|].
  split; [exact T|]. split; [exact U|]. split; [exact I|]. split; [exact S|]. exact P.
Qed.
