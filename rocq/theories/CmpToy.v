(** A library that satisfies the assumptions of the properties of the comparisons, for the examples. It is not a model of any
    code in /repo. *)
From Coq Require Import String Permutation Lia.
From Verif Require Import Prelude PreludeFacts ProtToy ProtTab ChamProofs ChamToy CatModel CmpModel CmpSpec CmpProofs.
From Verif Require SdModel RelModel.
Open Scope string_scope.
Open Scope Z_scope.
Open Scope list_scope.

(** Sorting, for the encoding of a SET OF. *)
Fixpoint lex (a b : bytes) : bool :=
  match a, b with
  | [], _ => true
  | _, [] => false
  | x :: a', y :: b' => (x <? y) || ((x =? y) && lex a' b')
  end.
Lemma lex_total a : forall b, lex a b = true \/ lex b a = true.
Proof.
  induction a as [|x a IH]; intros [|y b]; cbn [lex]; auto. destruct (Z.lt_trichotomy x y) as [H|[H|H]].
  - left. now rewrite (proj2 (Z.ltb_lt x y) H).
  - subst. rewrite Z.eqb_refl. destruct (IH b) as [E|E]; rewrite E; [left|right]; apply orb_true_r.
  - right. now rewrite (proj2 (Z.ltb_lt y x) H).
Qed.
Lemma lex_anti a : forall b, lex a b = true -> lex b a = true -> a = b.
Proof.
  induction a as [|x a IH]; intros [|y b]; cbn [lex]; try reflexivity; try discriminate.
  rewrite !orb_true_iff, !andb_true_iff, !Z.ltb_lt, !Z.eqb_eq. intros [H|[-> H]] [K|[E K]]; try lia. f_equal. apply IH; assumption.
Qed.
Lemma lex_trans a : forall b c, lex a b = true -> lex b c = true -> lex a c = true.
Proof.
  induction a as [|x a IH]; intros [|y b] [|z c]; cbn [lex]; try reflexivity; try discriminate.
  rewrite !orb_true_iff, !andb_true_iff, !Z.ltb_lt, !Z.eqb_eq. intros [H|[-> H]] [K|[<- K]]; try (left; lia). right. split; [reflexivity|]. exact (IH b c H K).
Qed.
Fixpoint ins (x : bytes) (l : list bytes) : list bytes :=
  match l with [] => [x] | y :: r => if lex x y then x :: l else y :: ins x r end.
Definition sort (l : list bytes) : list bytes := fold_right ins [] l.
Lemma ins_comm x y l : ins x (ins y l) = ins y (ins x l).
Proof.
  assert (forall a b, a <> b -> lex a b = negb (lex b a)) as T.
  { intros a b N. destruct (lex a b) eqn:E, (lex b a) eqn:F; try reflexivity; [exfalso; exact (N (lex_anti a b E F))|].
    destruct (lex_total a b); congruence. }
  destruct (list_eq_dec Z.eq_dec x y) as [->|N]; [reflexivity|]. induction l as [|z l IH]; cbn [ins].
  - rewrite (T x y N). destruct (lex y x); reflexivity.
  - destruct (lex y z) eqn:Y, (lex x z) eqn:X; cbn [ins]; rewrite ?X, ?Y, ?(T x y N).
    + destruct (lex y x); reflexivity.
    + destruct (lex y x) eqn:E; cbn [negb]; [reflexivity|]. exfalso. assert (lex x y = true) as F by (rewrite (T x y N), E; reflexivity).
      rewrite (lex_trans x y z F Y) in X. discriminate X.
    + destruct (lex y x) eqn:E; cbn [negb]; [|reflexivity]. rewrite (lex_trans y x z E X) in Y. discriminate Y.
    + now rewrite IH.
Qed.
Lemma ins_perm x l : Permutation (x :: l) (ins x l).
Proof. induction l as [|y l IH]; cbn [ins]; [reflexivity|]. destruct (lex x y); [reflexivity|]. transitivity (y :: x :: l); [constructor|]. constructor. exact IH. Qed.
Lemma sort_perm l : Permutation l (sort l).
Proof. induction l as [|x l IH]; cbn [sort fold_right]; [reflexivity|]. transitivity (x :: sort l); [constructor; exact IH|]. apply ins_perm. Qed.
Lemma sort_eq a b : Permutation a b -> sort a = sort b.
Proof. induction 1 as [|x a b P IH|x y a|a b c P IH Q JH]; cbn [sort fold_right]; [reflexivity|unfold sort in IH; now rewrite IH|apply ins_comm|congruence]. Qed.

Definition c_atv : codec atv := c_pair c_str c_bytes.
Definition c_rdn : codec (list bytes) := c_list c_bytes.
Definition put_rdn (r : list atv) : list bytes := sort (map (en c_atv) r).
Lemma en_inj A (c : codec A) a b : good c -> en c a = en c b -> a = b.
Proof. intros G E. pose proof (G a []) as H. rewrite E, (G b []) in H. congruence. Qed.
Lemma map_perm A B (f : A -> B) : (forall x y, f x = f y -> x = y) -> forall a b, Permutation (map f a) (map f b) -> Permutation a b.
Proof.
  intros F a b H. destruct (Permutation_map_inv f b H) as (c & E & P). rewrite P.
  assert (a = c) as ->; [|reflexivity]. clear H P b. revert c E. induction a as [|x a IH]; intros [|y c] E; try discriminate E; [reflexivity|]. cbn in E.
  injection E as E1 E2. rewrite (F x y E1), (IH c E2). reflexivity.
Qed.
Lemma put_rdn_iff a b : put_rdn a = put_rdn b <-> Permutation a b.
Proof.
  assert (good c_atv) as G by good_tac. unfold put_rdn. split; intros H.
  - apply (map_perm _ _ (en c_atv)); [intros x y E; exact (en_inj _ _ _ _ G E)|]. rewrite (sort_perm (map (en c_atv) a)), H. symmetry. apply sort_perm.
  - apply sort_eq, Permutation_map, H.
Qed.
Lemma map_rdn a : forall b, map put_rdn a = map put_rdn b <-> same_name a b.
Proof.
  induction a as [|x a IH]; intros [|y b]; cbn [map]; split; intros H; try discriminate H; try (inversion H; fail); try constructor; try reflexivity.
  - injection H as H1 H2. apply put_rdn_iff, H1.
  - injection H as H1 H2. apply IH, H2.
  - inversion H; subst. f_equal; [apply put_rdn_iff; assumption|apply IH; assumption].
Qed.

Definition c_algo : codec alg := c_map (fun p => {| g_oid := fst p; g_par := snd p |}) (fun a => (g_oid a, g_par a)) (c_pair c_str (c_opt c_bytes)).
Definition c_spki : codec spki := c_map (fun p => {| k_alg := fst p; k_bits := snd p |}) (fun a => (k_alg a, k_bits a)) (c_pair c_algo c_bytes).
Definition c_ext : codec ext :=
  c_map (fun p => {| x_id := fst p; x_crit := fst (snd p); x_val := snd (snd p) |})
        (fun e => (x_id e, (x_crit e, x_val e))) (c_pair c_str (c_pair c_bool c_bytes)).
Definition toy : lib := {|
  l_seqenc := fun n => 48 :: en (c_list c_rdn) (map put_rdn n);
  l_rdnenc := fun r => en c_rdn (put_rdn r);
  l_tagged := fun t b => 160 :: t :: b;
  l_notation := fun _ => Ok "name";
  l_load := fun s => match k_bits s with [] => Err EInvalidKeyData | _ => Ok {| u_id := en c_spki s |} end;
  l_der := u_id;
  l_same := fun a b => bytes_eqb (u_id a) (u_id b);
  l_class := fun k => Z.of_nat (length (u_id k));
  l_spkienc := en c_spki;
  l_by_name := fun n => if String.eqb n "rsa" then Ok "rsaEncryption" else Err EValueError;
  l_extsdec := de (c_list c_ext)
|}.
Lemma toy_canonical : canonical toy.
Proof.
  assert (good (c_list c_rdn)) as G by (unfold c_rdn; good_tac). assert (good c_rdn) as G' by (unfold c_rdn; good_tac).
  constructor; cbn [toy l_seqenc l_rdnenc l_tagged].
  - intros a b. rewrite <- map_rdn. split; [intros H; apply (f_equal (@tl Z)) in H; exact (en_inj _ _ _ _ G H)|intros ->; reflexivity].
  - intros [|x a]; [split; reflexivity|]. split; [|discriminate]. intros H. exfalso. cbn [map c_list en length] in H. assert (Z.of_nat (S (length (map put_rdn a))) = 0) by congruence. lia.
  - intros a b. rewrite <- put_rdn_iff. split; [apply (en_inj _ _ _ _ G')|intros ->; reflexivity].
  - intros t u a b. split; [intros H; split; [congruence|apply (f_equal (fun l => tl (tl l))) in H; exact H]|intros [-> H]; f_equal; f_equal; exact H].
  - intros t a b H. discriminate H.
Qed.

Definition cn : atv := ("id_at_commonName", [1]).
Definition org : atv := ("id_at_organizationName", [2]).
Definition n1 : name := {| n_tag := None; n_rdns := [[cn; org]] |}.
Definition n2 : name := {| n_tag := Some 4; n_rdns := [[org; cn]] |}.
Definition n3 : name := {| n_tag := None; n_rdns := [[org]; [cn]] |}.
Definition only_cn : name := {| n_tag := None; n_rdns := [[cn]] |}.
Definition nobody : name := {| n_tag := None; n_rdns := [] |}.
Definition rsa : alg := {| g_oid := "rsaEncryption"; g_par := Some [5; 0] |}.
Definition ec : alg := {| g_oid := "id_ecPublicKey"; g_par := Some [6] |}.
Definition key : spki := {| k_alg := rsa; k_bits := [9] |}.
Definition key' : spki := {| k_alg := rsa; k_bits := [8] |}.
Definition bc (v : Z) : ext := {| x_id := "id_ce_basicConstraints"; x_crit := true; x_val := [v] |}.
Definition crt : cert :=
  {| c_version := 2; c_serial := 7; c_issuer := n3; c_from := 10; c_to := 20; c_subject := n1; c_key := key; c_iuid := None; c_suid := Some [3];
     c_exts := [bc 0] |}.
Definition crt' : cert :=
  {| c_version := 2; c_serial := 8; c_issuer := n1; c_from := 10; c_to := 20; c_subject := n3; c_key := key'; c_iuid := None; c_suid := None;
     c_exts := [bc 1] |}.
Definition tpl : template :=
  {| t_version := Some 2; t_serial := Some 7; t_issuer := Some n3; t_validity := Some (Some 10, None); t_subject := Some n2; t_key := Some key;
     t_iuid := None; t_suid := Some [3]; t_exts := Some [bc 0] |}.
Definition with_exts (l : list ext) : template :=
  {| t_version := None; t_serial := None; t_issuer := None; t_validity := None; t_subject := None; t_key := None; t_iuid := None; t_suid := None;
     t_exts := Some l |}.
Definition with_key (s : spki) : template :=
  {| t_version := None; t_serial := None; t_issuer := None; t_validity := None; t_subject := None; t_key := Some s; t_iuid := None; t_suid := None;
     t_exts := None |}.
Definition with_subject (i : name) : template :=
  {| t_version := None; t_serial := None; t_issuer := None; t_validity := None; t_subject := Some i; t_key := None; t_iuid := None; t_suid := None;
     t_exts := None |}.
Definition asking (l : list ext) : csr :=
  {| r_subject := n2; r_key := key; r_attrs := Some [{| SdModel.t_type := RelModel.EXT_REQUEST; SdModel.t_vals := [en (c_list c_ext) l] |}] |}.
Lemma toy_readable t c z r : k_bits (c_key c) = z :: r -> t_key t = None \/ t_key t = Some (c_key c) -> readable toy t c.
Proof.
  intros B K. split; [intros n; eexists; reflexivity|]. split; [eexists; cbn; rewrite B; reflexivity|]. intros s E F. destruct K as [K|K]; [congruence|].
  assert (s = c_key c) by congruence. subst. congruence.
Qed.
