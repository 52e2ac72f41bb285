(** Proofs about composite signatures. *)
From Coq Require Import String Ascii DecimalString DecimalN NArith.
From Verif Require Import Prelude CompSigModel CompSigSpec.
From Verif Require PqKeyModel.
Import ListNotations.
Open Scope Z_scope.

(** ** Strings *)
Lemma app_inv_head_s (a b c : string) : (a ++ b = a ++ c)%string -> b = c.
Proof. induction a as [|x a IH]; cbn; intro H; [exact H|]. injection H as H. exact (IH H). Qed.
Lemma app_nil_s (a : string) : (a ++ "" = a)%string.
Proof. induction a as [|x a IH]; cbn; [reflexivity|]. rewrite IH. reflexivity. Qed.
Lemma uint_inj (u v : Decimal.uint) (x y : string) : NilEmpty.string_of_uint u = NilEmpty.string_of_uint v -> u = v.
Proof. intro H. pose proof (NilEmpty.usu u) as A. pose proof (NilEmpty.usu v) as B. rewrite H in A. congruence. Qed.
Lemma dec_inj a b : dec a = dec b -> a = b.
Proof.
  unfold dec. intro H. apply (uint_inj _ _ "" "")%string in H. apply (f_equal N.of_uint) in H.
  rewrite !DecimalN.Unsigned.of_to in H. exact H.
Qed.

(** A string of decimal digits followed by nothing or "-pss". *)
Fixpoint no_dash (s : string) : bool :=
  match s with EmptyString => true | String c r => negb (Ascii.eqb c "-"%char) && no_dash r end.
Lemma uint_no_dash u : no_dash (NilEmpty.string_of_uint u) = true.
Proof. induction u; cbn; auto. Qed.
Lemma app_dash a b x y : no_dash a = true -> no_dash b = true ->
  (x = ""%string \/ exists r, x = String "-"%char r) -> (y = ""%string \/ exists r, y = String "-"%char r) ->
  (a ++ x = b ++ y)%string -> a = b /\ x = y.
Proof.
  revert b. induction a as [|c a IH]; intros [|d b] Ha Hb Hx Hy H; cbn in *.
  - auto.
  - destruct Hx as [->|(r & ->)]; [discriminate|]. injection H as <- _. discriminate.
  - destruct Hy as [->|(r & ->)]; [discriminate|]. injection H as -> _. discriminate.
  - injection H as -> H. apply andb_prop in Ha, Hb. destruct (IH b (proj2 Ha) (proj2 Hb) Hx Hy H) as [-> ->]. auto.
Qed.

(** Names of traditional algorithms. *)
Definition alg_name (t : trad_alg) : string :=
  match t with
  | TRsa b p => "rsa" ++ dec b ++ (match p with Pss => "-pss" | Pkcs15 => "" end)
  | TEcdsa c => "ecdsa-" ++ c | TEd25519 => "ed25519" | TEd448 => "ed448"
  end%string.
Lemma alg_name_inj a b : alg_name a = alg_name b -> a = b.
Proof.
  destruct a as [n p|c| |], b as [n' p'|c'| |]; intro H; try reflexivity; try (cbn in H; discriminate H).
  - cbn [alg_name] in H. apply app_inv_head_s in H.
    apply app_dash in H; [|apply uint_no_dash|apply uint_no_dash|destruct p; [right; eexists; reflexivity|left; reflexivity]|destruct p'; [right; eexists; reflexivity|left; reflexivity]].
    destruct H as [H1 H2]. apply dec_inj in H1. subst n'. destruct p, p'; try discriminate H2; reflexivity.
  - cbn [alg_name] in H. apply app_inv_head_s in H. congruence.
Qed.
Lemma comp_name_inj a b s t : comp_name a s = comp_name b t -> a = b /\ s = t.
Proof.
  unfold comp_name. intro H. apply app_inv_head_s in H. destruct a, b; cbn in H; try discriminate H; injection H as H; auto.
Qed.

(** The table of names is the draft's. *)
Definition row_name (r : row) : string := comp_name (r_dsa r) (alg_name (r_trad r)).
Lemma table_names : name_to_oid = map (fun r => (row_name r, r_arc r)) draft.
Proof. reflexivity. Qed.
Lemma row_name_inj r r' : row_name r = row_name r' -> r_dsa r = r_dsa r' /\ r_trad r = r_trad r'.
Proof. intro H. apply comp_name_inj in H. destruct H as [A B]. apply alg_name_inj in B. auto. Qed.

Lemma lookup_map n l o : lookup_name n (map (fun r => (row_name r, r_arc r)) l) = Some o ->
  exists r, In r l /\ row_name r = n /\ r_arc r = o.
Proof.
  induction l as [|r l IH]; cbn [map lookup_name In]; intro H; [discriminate|]. destruct (String.eqb_spec (row_name r) n) as [Q|_].
  - injection H as <-. exists r. auto.
  - destruct (IH H) as (q & A & B). exists q. auto.
Qed.
Lemma lookup_none n l : lookup_name n (map (fun r => (row_name r, r_arc r)) l) = None -> forall r, In r l -> row_name r <> n.
Proof.
  induction l as [|q l IH]; cbn [map lookup_name In]; intros H r Hr; [contradiction|]. destruct (String.eqb_spec (row_name q) n) as [|N]; [discriminate|].
  destruct Hr as [<-|Hr]; auto.
Qed.

(** Arcs, and algorithm pairs, determine the row. *)
Lemma arc_nth r : In r draft -> nth_error draft (Z.to_nat (r_arc r - 37)) = Some r.
Proof. intro H. cbv [draft] in H. cbn [In] in H. repeat (destruct H as [<-|H]; [reflexivity|]). destruct H. Qed.
Lemma arc_inj r r' : In r draft -> In r' draft -> r_arc r = r_arc r' -> r = r'.
Proof. intros H H' E. apply arc_nth in H, H'. rewrite E in H. congruence. Qed.
Definition pad_eqb p q := match p, q with Pss, Pss | Pkcs15, Pkcs15 => true | _, _ => false end.
Definition alg_eqb a b := match a, b with
  | TRsa n p, TRsa m q => N.eqb n m && pad_eqb p q | TEcdsa c, TEcdsa d => String.eqb c d
  | TEd25519, TEd25519 | TEd448, TEd448 => true | _, _ => false end.
Lemma alg_eqb_refl a : alg_eqb a a = true.
Proof. destruct a as [n p|c| |]; cbn; auto. rewrite N.eqb_refl. destruct p; reflexivity. apply String.eqb_refl. Qed.
Definition dsa_eqb a b := match a, b with PqKeyModel.D44, PqKeyModel.D44 | PqKeyModel.D65, PqKeyModel.D65 | PqKeyModel.D87, PqKeyModel.D87 => true | _, _ => false end.
Lemma pair_inj r r' : In r draft -> In r' draft -> r_dsa r = r_dsa r' -> r_trad r = r_trad r' -> r = r'.
Proof.
  intros H H' A B. apply arc_inj; [exact H|exact H'|].
  assert (T : forallb (fun r => forallb (fun r' => implb (dsa_eqb (r_dsa r) (r_dsa r') && alg_eqb (r_trad r) (r_trad r')) (Z.eqb (r_arc r) (r_arc r'))) draft) draft = true) by (vm_compute; reflexivity).
  rewrite forallb_forall in T. specialize (T r H). rewrite forallb_forall in T. specialize (T r' H'). rewrite A, B, alg_eqb_refl in T.
  replace (dsa_eqb (r_dsa r') (r_dsa r')) with true in T by (destruct (r_dsa r'); reflexivity). cbn [andb implb] in T. apply Z.eqb_eq. exact T.
Qed.

Lemma oid_ok a t o : oid_by_name (comp_name a (alg_name t)) = Ok o <-> exists r, In r draft /\ r_dsa r = a /\ r_trad r = t /\ r_arc r = o.
Proof.
  unfold oid_by_name. rewrite table_names. split.
  - destruct (lookup_name _ _) as [o'|] eqn:L; [|discriminate]. intro H. injection H as ->. apply lookup_map in L. destruct L as (r & I & N & A).
    exists r. apply comp_name_inj in N. destruct N as [N1 N2]. apply alg_name_inj in N2. auto.
  - intros (r & I & A & B & C). destruct (lookup_name _ _) as [o'|] eqn:L.
    + apply lookup_map in L. destruct L as (r' & I' & N & A'). apply comp_name_inj in N. destruct N as [N1 N2]. apply alg_name_inj in N2.
      assert (r = r') by (apply pair_inj; congruence). congruence.
    + exfalso. apply (lookup_none _ _ L r I). unfold row_name. rewrite A, B. reflexivity.
Qed.
Lemma oid_err a t : (forall r, In r draft -> r_dsa r = a -> r_trad r = t -> False) -> oid_by_name (comp_name a (alg_name t)) = Err EInvalidKeyCombination.
Proof.
  intro H. destruct (oid_by_name _) as [o|e] eqn:Q.
  - apply (oid_ok a t o) in Q. destruct Q as (r & I & A & B & _). destruct (H r I A B).
  - unfold oid_by_name in Q. destruct (lookup_name _ _); [discriminate|]. congruence.
Qed.

Lemma pub_name t pss a : pub_alg t pss = Some a -> pub_trad_name t pss = Ok (alg_name a).
Proof. destruct t; cbn; intro H; try discriminate; injection H as <-; try reflexivity. destruct pss; reflexivity. Qed.
Lemma pub_oid_ok k pss o : pub_oid k pss = Ok o <-> exists r, pub_row k pss r /\ r_arc r = o.
Proof.
  unfold pub_oid, pub_row. destruct (pub_alg (pk_trad k) pss) as [a|] eqn:A.
  - rewrite (pub_name _ _ _ A). cbn [bind]. rewrite oid_ok. split; intros (r & H).
    + exists r. intuition congruence.
    + exists r. destruct H as ((I & B & C) & D). injection C as ->. auto.
  - destruct (pk_trad k); try discriminate. cbn. split; [discriminate|]. intros (r & (_ & _ & C) & _). discriminate.
Qed.
Lemma pub_row_unique k pss r r' : pub_row k pss r -> pub_row k pss r' -> r = r'.
Proof. intros (A & B & C) (A' & B' & C'). apply pair_inj; congruence. Qed.

Definition nearest (t : tpriv) : tpriv := match t with RsaPriv b k => RsaPriv (get_rsa_size b) k | _ => t end.
Lemma priv_name t pss a : priv_alg (nearest t) pss = Some a -> priv_trad_name t pss = Ok (alg_name a).
Proof. destruct t; cbn [nearest priv_alg priv_trad_name]; intro H; try discriminate; injection H as <-; try reflexivity. destruct pss; reflexivity. Qed.
Lemma nearest_exact t : rsa_size_ok t -> nearest t = t.
Proof. destruct t; cbn; auto. intros [<-|[<-|[<-|[]]]]; reflexivity. Qed.
Definition priv_row' (k : privkey) (pss : bool) (r : row) : Prop :=
  In r draft /\ r_dsa r = sk_pq k /\ priv_alg (nearest (sk_trad k)) pss = Some (r_trad r).
Lemma priv_oid_ok k pss o : priv_oid k pss = Ok o <-> exists r, priv_row' k pss r /\ r_arc r = o.
Proof.
  unfold priv_oid, priv_row'. destruct (priv_alg (nearest (sk_trad k)) pss) as [a|] eqn:A.
  - rewrite (priv_name _ _ _ A). cbn [bind]. rewrite oid_ok. split; intros (r & H).
    + exists r. intuition congruence.
    + exists r. destruct H as ((I & B & C) & D). injection C as ->. auto.
  - destruct (sk_trad k); try discriminate. cbn. split; [discriminate|]. intros (r & (_ & _ & C) & _). discriminate.
Qed.

(** ** Tables *)
Lemma tables r : In r draft -> label_of (r_arc r) = Some (lit (r_label r)) /\ inner_hash (r_arc r) = r_inner r /\ prehash_of (r_arc r) = Ok (r_pre r).
Proof.
  intro H. cbv [draft] in H. cbn [In] in H. repeat (destruct H as [<-|H]; [repeat split|]). destruct H.
Qed.

Section Env.
Variable E : env.
Notation digest r data := (c_hash E (r_pre r) data).

Lemma prepare_ok r data ctx : In r draft -> (List.length ctx <= 255)%nat ->
  prepare_sig_input E (r_arc r) data ctx = Ok (representative r ctx (digest r data), lit (r_label r)).
Proof.
  intros I L. destruct (tables r I) as (A & _ & B). unfold prepare_sig_input, get_label, compute_prehash. rewrite A, B.
  replace (255 <? List.length ctx)%nat with false by (symmetry; apply Nat.ltb_ge; exact L). cbn [negb guard bind]. unfold representative, PREFIX.
  rewrite <- !app_assoc. reflexivity.
Qed.
Lemma prepare_input_ok go data ctx m l : prepare_input E go data ctx = Ok (m, l) -> (List.length ctx <= 255)%nat /\ exists o, go = Ok o.
Proof.
  unfold prepare_input. destruct (255 <? List.length ctx)%nat eqn:L; cbn [negb guard bind]; [discriminate|]. apply Nat.ltb_ge in L. intro H.
  split; [exact L|]. destruct go as [o|]; [eexists; reflexivity|discriminate].
Qed.

Lemma verify_row k data sg ctx pss r : pub_row k pss r -> (List.length ctx <= 255)%nat ->
  verify E k data sg ctx pss =
  (let! _ := PqKeyModel.dsa_verify (c_pq E) (r_dsa r) (pk_pq_bytes k) (firstn (dsa_len (r_dsa r)) sg) (representative r ctx (digest r data)) None false (lit (r_label r)) in
   trad_verify E (pk_trad k) (pad_of pss) (r_inner r) (representative r ctx (digest r data)) (skipn (dsa_len (r_dsa r)) sg)).
Proof.
  intros R L. pose proof R as (I & D & T). assert (O : pub_oid k pss = Ok (r_arc r)) by (apply pub_oid_ok; exists r; auto).
  unfold verify, prepare_input. rewrite O. replace (255 <? List.length ctx)%nat with false by (symmetry; apply Nat.ltb_ge; exact L).
  cbn [negb guard bind]. rewrite prepare_ok by assumption. cbn [bind]. rewrite <- D.
  change (sig_size (r_dsa r)) with (dsa_len (r_dsa r)).
  destruct (PqKeyModel.dsa_verify _ _ _ _ _ _ _ _) as [[]|]; cbn [bind]; [|reflexivity].
  unfold verify_trad. rewrite O. cbn [bind]. destruct (tables r I) as (_ & -> & _).
  destruct (pk_trad k); try reflexivity. destruct pss; reflexivity.
Qed.

Theorem verify_iff k data sg ctx pss : verify E k data sg ctx pss = Ok tt <->
  (List.length ctx <= 255)%nat /\ exists r, pub_row k pss r /\
  let m := representative r ctx (digest r data) in
  dsa_accepts E r (pk_pq_bytes k) m (firstn (dsa_len (r_dsa r)) sg) /\
  trad_verify E (pk_trad k) (pad_of pss) (r_inner r) m (skipn (dsa_len (r_dsa r)) sg) = Ok tt.
Proof.
  split.
  - intro H. assert (P : (List.length ctx <= 255)%nat /\ exists o, pub_oid k pss = Ok o).
    { unfold verify in H. destruct (prepare_input _ _ _ _) as [[m l]|] eqn:Q; [|discriminate]. exact (prepare_input_ok _ _ _ _ _ Q). }
    destruct P as (L & o & O). apply pub_oid_ok in O. destruct O as (r & R & _). split; [exact L|]. exists r. split; [exact R|].
    rewrite (verify_row _ _ _ _ _ _ R L) in H. cbv zeta. unfold dsa_accepts. destruct (PqKeyModel.dsa_verify _ _ _ _ _ _ _ _) as [[]|]; [|discriminate].
    split; [reflexivity|exact H].
  - intros (L & r & R & H). cbv zeta in H. destruct H as [A B]. rewrite (verify_row _ _ _ _ _ _ R L). unfold dsa_accepts in A. rewrite A. exact B.
Qed.

Lemma sign_row k fuel data ctx pss rnd r : priv_row' k pss r -> (List.length ctx <= 255)%nat ->
  let m := representative r ctx (digest r data) in
  sign E k fuel data ctx pss rnd =
  match PqKeyModel.dsa_sign (c_pq E) (r_dsa r) fuel (PqKeyModel.k_priv (sk_pq_key k)) m None (lit (r_label r)) false rnd with
  | None => None | Some (Err e) => Some (Err e)
  | Some (Ok s) => Some (let! t := trad_sign E (sk_trad k) (pad_of pss) (r_inner r) m rnd in Ok (s ++ t))
  end.
Proof.
  intros R L. pose proof R as (I & D & T). assert (O : priv_oid k pss = Ok (r_arc r)) by (apply priv_oid_ok; exists r; auto).
  unfold sign, prepare_input. rewrite O. replace (255 <? List.length ctx)%nat with false by (symmetry; apply Nat.ltb_ge; exact L).
  cbn [negb guard bind]. rewrite prepare_ok by assumption. rewrite <- D.
  destruct (PqKeyModel.dsa_sign _ _ _ _ _ _ _ _ _) as [[s|]|]; try reflexivity.
  unfold sign_trad. rewrite O. cbn [bind]. destruct (tables r I) as (_ & -> & _).
  destruct (sk_trad k); try reflexivity. destruct pss; reflexivity.
Qed.
Theorem sign_iff' k fuel data ctx pss rnd sg : sign E k fuel data ctx pss rnd = Some (Ok sg) <->
  (List.length ctx <= 255)%nat /\ exists r, priv_row' k pss r /\
  let m := representative r ctx (digest r data) in exists s t,
  PqKeyModel.dsa_sign (c_pq E) (r_dsa r) fuel (PqKeyModel.k_priv (sk_pq_key k)) m None (lit (r_label r)) false rnd = Some (Ok s) /\
  trad_sign E (sk_trad k) (pad_of pss) (r_inner r) m rnd = Ok t /\ sg = s ++ t.
Proof.
  split.
  - intro H. assert (P : (List.length ctx <= 255)%nat /\ exists o, priv_oid k pss = Ok o).
    { unfold sign in H. destruct (255 <? _)%nat; [discriminate|]. destruct (prepare_input _ _ _ _) as [[m l]|] eqn:Q; [|discriminate]. exact (prepare_input_ok _ _ _ _ _ Q). }
    destruct P as (L & o & O). apply priv_oid_ok in O. destruct O as (r & R & _). split; [exact L|]. exists r. split; [exact R|].
    rewrite (sign_row _ _ _ _ _ _ _ R L) in H. cbv zeta. destruct (PqKeyModel.dsa_sign _ _ _ _ _ _ _ _ _) as [[s|]|]; try discriminate.
    destruct (trad_sign _ _ _ _ _ _) as [t|]; cbn [bind] in H; [|discriminate]. injection H as <-. exists s, t. auto.
  - intros (L & r & R & H). cbv zeta in H. destruct H as (s & t & A & B & ->). rewrite (sign_row _ _ _ _ _ _ _ R L). rewrite A, B. reflexivity.
Qed.
Theorem sign_iff k fuel data ctx pss rnd sg : rsa_size_ok (sk_trad k) -> (sign E k fuel data ctx pss rnd = Some (Ok sg) <->
  (List.length ctx <= 255)%nat /\ exists r, priv_row k pss r /\
  let m := representative r ctx (digest r data) in exists s t,
  PqKeyModel.dsa_sign (c_pq E) (r_dsa r) fuel (PqKeyModel.k_priv (sk_pq_key k)) m None (lit (r_label r)) false rnd = Some (Ok s) /\
  trad_sign E (sk_trad k) (pad_of pss) (r_inner r) m rnd = Ok t /\ sg = s ++ t).
Proof.
  intro Z. rewrite sign_iff'. unfold priv_row', priv_row. rewrite (nearest_exact _ Z). reflexivity.
Qed.

Lemma public_alg t pss : pub_alg (trad_public E t) pss = priv_alg t pss.
Proof. destruct t; reflexivity. Qed.
End Env.

(** ** The representative *)
Fixpoint prefixb (a b : bytes) : bool :=
  match a, b with [], _ => true | x :: a, y :: b => Z.eqb x y && prefixb a b | _, _ => false end.
Lemma app_prefix a b x y : a ++ x = b ++ y -> prefixb a b = true \/ prefixb b a = true.
Proof.
  revert b. induction a as [|u a IH]; intros [|v b] H; cbn; auto. cbn in H. injection H as -> H. rewrite Z.eqb_refl. cbn. exact (IH b H).
Qed.
Lemma label_prefix r r' : In r draft -> In r' draft -> prefixb (lit (r_label r)) (lit (r_label r')) = true -> r = r'.
Proof.
  intros H H' P. apply arc_inj; [exact H|exact H'|].
  assert (T : forallb (fun r => forallb (fun r' => implb (prefixb (lit (r_label r)) (lit (r_label r'))) (Z.eqb (r_arc r) (r_arc r'))) draft) draft = true) by (vm_compute; reflexivity).
  rewrite forallb_forall in T. specialize (T r H). rewrite forallb_forall in T. specialize (T r' H'). rewrite P in T. apply Z.eqb_eq. exact T.
Qed.
Theorem representative_inj r r' ctx ctx' d d' : In r draft -> In r' draft ->
  representative r ctx d = representative r' ctx' d' -> r = r' /\ ctx = ctx' /\ d = d'.
Proof.
  intros I I' H. unfold representative in H. apply app_inv_head in H.
  assert (r = r').
  { destruct (app_prefix _ _ _ _ H) as [P|P]; [exact (label_prefix _ _ I I' P)|symmetry; exact (label_prefix _ _ I' I P)]. }
  subst r'. apply app_inv_head in H. cbn [app] in H. injection H as L H. apply Nat2Z.inj in L. split; [reflexivity|].
  assert (A : firstn (List.length ctx) (ctx ++ d) = firstn (List.length ctx) (ctx' ++ d')) by congruence.
  rewrite firstn_app, firstn_all, Nat.sub_diag, firstn_O, app_nil_r, L, firstn_app, firstn_all, Nat.sub_diag, firstn_O, app_nil_r in A. subst ctx'.
  apply app_inv_head in H. auto.
Qed.
