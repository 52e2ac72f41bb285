(** Proofs about loading and saving hybrid key encapsulation keys. *)
From Coq Require Import String Ascii NArith.
From Verif Require Import Prelude PreludeFacts CompSigModel CompSigProofs CompLoadModel TradKemModel TradKemSpec HybKemModel HybKemSpec HybKemProofs HybLoadModel HybLoadSpec.
From Verif Require PqKeyModel PqKeySpec PqKeyProofs PqKeyMore.
Open Scope Z_scope.
Local Notation length := List.length.

(** ** Tables *)
Lemma name_of_in {A} (f : A -> string) (g : A -> oid) o n rows :
  name_of o (map (fun r => (f r, g r)) rows) = Some n -> exists r, In r rows /\ o = g r /\ n = f r.
Proof.
  induction rows as [|r rows IH]; cbn [map name_of]; [discriminate|]. destruct (bytes_eqb o (g r)) eqn:E1.
  - intro H. injection H as <-. apply bytes_eqb_eq in E1. exists r. cbn [In]. auto.
  - intro H. destruct (IH H) as (r' & I & H1 & H2). exists r'. cbn [In]. auto.
Qed.
Lemma in_name_of {A} (f : A -> string) (g : A -> oid) r rows : (forall a b, In a rows -> In b rows -> g a = g b -> f a = f b) -> In r rows ->
  name_of (g r) (map (fun r => (f r, g r)) rows) = Some (f r).
Proof.
  induction rows as [|a rows IH]; intros U I; [contradiction|]. cbn [map name_of].
  destruct (bytes_eqb (g r) (g a)) eqn:E1.
  - apply bytes_eqb_eq in E1. f_equal. apply U; [left; reflexivity|exact I|symmetry; exact E1].
  - destruct I as [->|I]; [rewrite bytes_eqb_refl in E1; discriminate E1|]. apply IH; [|exact I].
    intros x y Hx Hy. apply U; right; assumption.
Qed.
Lemma oids_unique a b : In a all_rows -> In b all_rows -> kr_oid a = kr_oid b -> row_name a = row_name b.
Proof.
  assert (T : forallb (fun a => forallb (fun b => implb (bytes_eqb (kr_oid a) (kr_oid b)) (String.eqb (row_name a) (row_name b))) all_rows) all_rows = true)
    by (vm_compute; reflexivity).
  intros Ha Hb H. rewrite forallb_forall in T. specialize (T a Ha). rewrite forallb_forall in T. specialize (T b Hb).
  rewrite H, bytes_eqb_refl in T. cbn [implb] in T. apply String.eqb_eq, T.
Qed.
Lemma coids_unique a b : In a chempat_rows -> In b chempat_rows -> snd a = snd b -> crow_name a = crow_name b.
Proof.
  assert (T : forallb (fun a : pqname * curve * list Z => forallb (fun b : pqname * curve * list Z => implb (bytes_eqb (snd a) (snd b)) (String.eqb (crow_name a) (crow_name b))) chempat_rows) chempat_rows = true)
    by (vm_compute; reflexivity).
  intros Ha Hb H. rewrite forallb_forall in T. specialize (T a Ha). rewrite forallb_forall in T. specialize (T b Hb).
  rewrite H, bytes_eqb_refl in T. cbn [implb] in T. apply String.eqb_eq, T.
Qed.
Lemma comp_name_of r : In r all_rows -> name_of (kr_oid r) COMPOSITE_KEM_NAME_2_OID = Some (row_name r).
Proof. intro I. rewrite table_rows. apply (in_name_of row_name kr_oid); [exact oids_unique|exact I]. Qed.
Lemma comp_get r : In r all_rows -> get (row_name r) COMPOSITE_KEM_NAME_2_OID = Some (kr_oid r).
Proof. intro I. rewrite table_rows. apply get_rows_in; [exact rows_unique|exact I]. Qed.
Lemma comp_of_name o n : name_of o COMPOSITE_KEM_NAME_2_OID = Some n -> exists r, In r all_rows /\ o = kr_oid r /\ n = row_name r.
Proof. rewrite table_rows. apply (name_of_in row_name kr_oid). Qed.
Lemma chempat_name_of r : In r chempat_rows -> name_of (snd r) CHEMPAT_NAME_2_OID = Some (crow_name r).
Proof. intro I. rewrite ctable_rows. apply (in_name_of crow_name snd); [exact coids_unique|exact I]. Qed.
Lemma chempat_of_name o n : name_of o CHEMPAT_NAME_2_OID = Some n -> exists r, In r chempat_rows /\ o = snd r /\ n = crow_name r.
Proof. rewrite ctable_rows. apply (name_of_in crow_name snd). Qed.
(** The three sets of identifiers are disjoint. *)
Lemma comp_not_chempat r : In r chempat_rows -> name_of (snd r) COMPOSITE_KEM_NAME_2_OID = None.
Proof.
  assert (T : forallb (fun r : pqname * curve * list Z => match name_of (snd r) COMPOSITE_KEM_NAME_2_OID with None => negb (bytes_eqb (snd r) XWING_OID) | _ => false end) chempat_rows = true)
    by (vm_compute; reflexivity).
  rewrite forallb_forall in T. intro I. specialize (T r I). destruct (name_of _ _); [discriminate T|reflexivity].
Qed.
Lemma chempat_not_xwing r : In r chempat_rows -> bytes_eqb (snd r) XWING_OID = false.
Proof.
  assert (T : forallb (fun r : pqname * curve * list Z => negb (bytes_eqb (snd r) XWING_OID)) chempat_rows = true) by (vm_compute; reflexivity).
  rewrite forallb_forall in T. intro I. specialize (T r I). destruct (bytes_eqb _ _); [discriminate T|reflexivity].
Qed.
Lemma comp_not_xwing r : In r all_rows -> bytes_eqb (kr_oid r) XWING_OID = false.
Proof.
  assert (T : forallb (fun r => negb (bytes_eqb (kr_oid r) XWING_OID)) all_rows = true) by (vm_compute; reflexivity).
  rewrite forallb_forall in T. intro I. specialize (T r I). destruct (bytes_eqb _ _); [discriminate T|reflexivity].
Qed.

(** ** Names *)
Lemma row_split r : In r all_rows ->
  split_hybrid (row_name r) = Ok (kr_pq r, lower (talg_name (kr_trad r))) /\
  contains "dhkem" (row_name r) = kr_dhkem r /\ startswith "composite-dhkem" (row_name r) = kr_dhkem r.
Proof.
  assert (T : forallb (fun r => match split_hybrid (row_name r) with
      | Ok (q, t) => String.eqb (pq_name q) (pq_name (kr_pq r)) && String.eqb t (lower (talg_name (kr_trad r))) | Err _ => false end &&
      Bool.eqb (contains "dhkem" (row_name r)) (kr_dhkem r) && Bool.eqb (startswith "composite-dhkem" (row_name r)) (kr_dhkem r)) all_rows = true)
    by (vm_compute; reflexivity).
  intro I. rewrite forallb_forall in T. specialize (T r I). destruct (split_hybrid _) as [[q t]|]; [|discriminate T].
  apply andb_true_iff in T. destruct T as [T T3]. apply andb_true_iff in T. destruct T as [T T2]. apply andb_true_iff in T. destruct T as [T T1].
  apply String.eqb_eq in T, T1. apply Bool.eqb_prop in T2, T3. apply pq_name_inj in T. subst. auto.
Qed.
(** The traditional algorithms that occur. *)
Definition rsa_sizes : list N := [2048; 3072; 4096]%N.
Definition talg_ok (a : talg) : Prop := match a with ADh c => c <> BP512 | ARsa n => In n rsa_sizes end.
Lemma row_talg r : In r all_rows -> talg_ok (kr_trad r).
Proof.
  assert (T : forallb (fun r => match kr_trad r with ADh BP512 => false | ADh _ => true | ARsa n => existsb (N.eqb n) rsa_sizes end) all_rows = true)
    by (vm_compute; reflexivity).
  intro I. rewrite forallb_forall in T. specialize (T r I). unfold talg_ok. destruct (kr_trad r) as [c|n].
  - destruct c; discriminate.
  - apply existsb_exists in T. destruct T as (x & I' & E1). apply N.eqb_eq in E1. subst x. exact I'.
Qed.
Lemma row_rsa r n : In r all_rows -> kr_trad r = ARsa n -> kr_dhkem r = false.
Proof.
  assert (T : forallb (fun r => match kr_trad r with ARsa _ => negb (kr_dhkem r) | _ => true end) all_rows = true) by (vm_compute; reflexivity).
  intros I H. rewrite forallb_forall in T. specialize (T r I). rewrite H in T. destruct (kr_dhkem r); [discriminate T|reflexivity].
Qed.

Section Lib.
Variable L : hlib.
Variable K : klib.
Notation TL := (h_trad L).
Notation E := (h_pq L).

Lemma guard_ok b e (u : unit) : guard b e = Ok u <-> b = true.
Proof. destruct b, u; cbn [guard]; split; congruence. Qed.
Lemma of_opt_ok {A} (o : option A) e a : of_opt o e = Ok a <-> o = Some a.
Proof. destruct o; cbn [of_opt]; split; congruence. Qed.

(** ** Reading the halves *)
Lemma load_trad_ec c d : is_ec c = true ->
  load_trad L K (lower (talg_name (ADh c))) d =
  let! r := of_opt (kl_ec_rest K d) EInvalidKeyData in
  let! _ := guard (match r with [] => true | _ => false end) EInvalidKeyData in
  let! t := of_opt (kl_der_priv K d) EInvalidKeyData in
  match t with
  | DEc c' x => let! _ := guard (String.eqb (lower (curve_name c')) (lower (curve_name c))) EInvalidKeyData in Ok (SDh false c' x)
  | _ => Err EInvalidKeyData
  end.
Proof. destruct c; try discriminate; reflexivity. Qed.
Lemma load_trad_raw c d : is_ec c = false ->
  load_trad L K (lower (talg_name (ADh c))) d =
  if (length d =? std_pub_len c)%nat then Ok (SDh false c d) else Err EInvalidKeyData.
Proof. destruct c; try discriminate; reflexivity. Qed.
Lemma load_trad_rsa n d : In n rsa_sizes ->
  load_trad L K (lower (talg_name (ARsa n))) d =
  let! r := of_opt (kl_rsa_rest K d) EInvalidKeyData in
  let! _ := guard (match r with [] => true | _ => false end) EInvalidKeyData in
  let! t := of_opt (kl_der_priv K d) EInvalidKeyData in
  match t with
  | DRsa k => let! _ := guard (N.eqb n (t_rsa_bits TL (t_rsa_pub TL k))) EInvalidKeyData in Ok (SRsa k)
  | _ => Err EInvalidKeyData
  end.
Proof. intros [<-|[<-|[<-|[]]]]; reflexivity. Qed.
Lemma lower_curve c c' : lower (curve_name c) = lower (curve_name c') -> c = c'.
Proof. destruct c, c'; intro H; try reflexivity; discriminate H. Qed.

Lemma load_trad_iff a d t : talg_ok a -> load_trad L K (lower (talg_name a)) d = Ok t <-> trad_half L K a d t.
Proof.
  destruct a as [c|n]; cbn [talg_ok]; intro A.
  - destruct (is_ec c) eqn:Ec.
    + rewrite load_trad_ec by exact Ec. cbn [trad_half]. split.
      * rewrite bind_ok. intros (r & Hr & H). rewrite of_opt_ok in Hr. rewrite bind_ok in H. destruct H as (u & Hu & H). rewrite guard_ok in Hu.
        rewrite bind_ok in H. destruct H as (x & Hx & H). rewrite of_opt_ok in Hx. destruct x as [c' x|k|]; try discriminate H.
        rewrite bind_ok in H. destruct H as (u' & Hu' & H). rewrite guard_ok in Hu'. apply String.eqb_eq, lower_curve in Hu'. subst c'.
        injection H as <-. rewrite Ec. destruct r; [|discriminate Hu]. auto.
      * destruct t as [[] c' x|k]; try contradiction. intros [-> H]. rewrite Ec in H. destruct H as [H1 H2]. rewrite H1, H2. cbn [of_opt bind guard].
        rewrite String.eqb_refl. reflexivity.
    + rewrite load_trad_raw by exact Ec. cbn [trad_half]. destruct (Nat.eqb_spec (length d) (std_pub_len c)) as [Le|Ne]; split.
      * intro H. injection H as <-. rewrite Ec. auto.
      * destruct t as [[] c' x|k]; try contradiction. intros [-> H]. rewrite Ec in H. destruct H as [-> _]. reflexivity.
      * discriminate.
      * destruct t as [[] c' x|k]; try contradiction. intros [-> H]. rewrite Ec in H. destruct H as [-> H]. contradiction.
  - rewrite load_trad_rsa by exact A. cbn [trad_half]. split.
    + rewrite bind_ok. intros (r & Hr & H). rewrite of_opt_ok in Hr. rewrite bind_ok in H. destruct H as (u & Hu & H). rewrite guard_ok in Hu.
      rewrite bind_ok in H. destruct H as (x & Hx & H). rewrite of_opt_ok in Hx. destruct x as [c' x|k|]; try discriminate H.
      rewrite bind_ok in H. destruct H as (u' & Hu' & H). rewrite guard_ok in Hu'. apply N.eqb_eq in Hu'.
      injection H as <-. destruct r; [|discriminate Hu]. auto.
    + destruct t as [rfc c' x|k]; try contradiction. intros (H1 & H2 & H3). rewrite H1, H2. cbn [of_opt bind guard].
      rewrite H3, N.eqb_refl. reflexivity.
Qed.

Lemma read_pub_iff c d x : read_pub TL c d = Ok x <-> if is_ec c then t_point TL c d = Some x else x = d /\ length d = std_pub_len c.
Proof.
  destruct (is_ec c) eqn:Ec.
  - transitivity (match t_point TL c d with Some q => Ok q | None => Err EValueError end = Ok x).
    + destruct c; try discriminate Ec; reflexivity.
    + destruct (t_point TL c d); split; congruence.
  - transitivity ((if (length d =? std_pub_len c)%nat then Ok d else Err EValueError) = Ok x).
    + destruct c; try discriminate Ec; reflexivity.
    + destruct (Nat.eqb_spec (length d) (std_pub_len c)) as [Le|Ne]; split; try congruence.
      * intro H. split; congruence.
      * intros [-> _]. reflexivity.
      * intros [_ H]. contradiction.
Qed.
Lemma read_pub_err c d e : read_pub TL c d = Err e -> e = EValueError.
Proof. destruct c; cbn [read_pub]; intro H; try (destruct (t_point _ _ _); congruence); destruct (_ =? _)%nat; congruence. Qed.

(** The traditional half of a public key. *)
Definition read_trad (trad : string) (rest : bytes) : result tpub :=
  if String.eqb trad "x25519" then let! b := read_pub TL X25519 rest in Ok (PDh false X25519 b)
  else if String.eqb trad "x448" then let! b := read_pub TL X448 rest in Ok (PDh false X448 b)
  else if startswith "ecdh-" trad then
    let! c := of_opt (curve_of (drop_first "ecdh-" trad)) EValueError in
    let! b := read_pub TL c rest in Ok (PDh false c b)
  else if startswith "rsa" trad then
    let! num := of_opt (rsa_num (drop_first "rsa" trad)) EValueError in
    let! k := of_opt (kl_rsa_pub K rest) EValueError in
    let! k := of_opt k EInvalidKeyCombination in
    let! _ := guard (N.eqb (t_rsa_bits TL k) num) EInvalidKeyCombination in
    Ok (PRsa k)
  else Err EValueError.
Lemma read_trad_dh c d : read_trad (lower (talg_name (ADh c))) d = let! b := read_pub TL c d in Ok (PDh false c b).
Proof. destruct c; reflexivity. Qed.
Lemma read_trad_rsa n d : In n rsa_sizes -> read_trad (lower (talg_name (ARsa n))) d =
  let! k := of_opt (kl_rsa_pub K d) EValueError in
  let! k := of_opt k EInvalidKeyCombination in
  let! _ := guard (N.eqb (t_rsa_bits TL k) n) EInvalidKeyCombination in
  Ok (PRsa k).
Proof. intros [<-|[<-|[<-|[]]]]; reflexivity. Qed.
Lemma read_trad_iff a d t : talg_ok a -> read_trad (lower (talg_name a)) d = Ok t <-> trad_pub_half L K a d t.
Proof.
  destruct a as [c|n]; cbn [talg_ok trad_pub_half]; intro A.
  - rewrite read_trad_dh, bind_ok. split.
    + intros (x & H & H'). injection H' as <-. split; [reflexivity|]. apply read_pub_iff, H.
    + destruct t as [[] c' x|k]; try contradiction. intros [-> H]. exists x. split; [apply read_pub_iff, H|reflexivity].
  - rewrite read_trad_rsa by exact A. split.
    + rewrite bind_ok. intros (x & Hx & H). rewrite of_opt_ok in Hx. rewrite bind_ok in H. destruct H as (k & Hk & H). rewrite of_opt_ok in Hk. subst x.
      rewrite bind_ok in H. destruct H as (u & Hu & H). rewrite guard_ok in Hu. apply N.eqb_eq in Hu. injection H as <-. auto.
    + destruct t as [rfc c' x|k]; try contradiction. intros [H1 H2]. rewrite H1. cbn [of_opt bind]. rewrite H2, N.eqb_refl. reflexivity.
Qed.

Lemma pq_pub_len_eq q : pq_pub_len K q = pq_pub_size K q.
Proof. destruct q as [[]| | |]; reflexivity. Qed.
Lemma pq_from_public_iff q d p rest : pq_from_public K q d = Ok (p, rest) <->
  pp_name p = q /\ length (pp_bytes p) = pq_pub_size K q /\ d = pp_bytes p ++ rest.
Proof.
  unfold pq_from_public. cbv zeta. rewrite pq_pub_len_eq. set (n := pq_pub_size K q). split.
  - rewrite bind_ok. intros (u & Hu & H). rewrite guard_ok in Hu. apply Nat.eqb_eq in Hu. injection H as <- <-. cbn [pp_name pp_bytes].
    split; [reflexivity|]. split; [exact Hu|]. symmetry. apply firstn_skipn.
  - intros (H1 & H2 & ->). rewrite (firstn_app_exact (pp_bytes p) rest n H2), (skipn_app_exact (pp_bytes p) rest n H2), H2, Nat.eqb_refl.
    cbn [guard bind]. destruct p as [pn pb]. cbn [pp_name pp_bytes] in *. subst pn. reflexivity.
Qed.
Lemma pq_from_public_err q d e : pq_from_public K q d = Err e -> e = EInvalidKeyData.
Proof. unfold pq_from_public. cbv zeta. destruct (_ =? _)%nat; cbn [guard bind]; congruence. Qed.

Lemma load_comp_public_eq r d : In r all_rows ->
  load_comp_public L K (kr_oid r) d =
  let! (pk, rest) := pq_from_public K (kr_pq r) d in
  let! t := read_trad (lower (talg_name (kr_trad r))) rest in
  Ok (mk_kpub (kr_dhkem r) pk t).
Proof.
  intro I. unfold load_comp_public. rewrite comp_name_of by exact I. cbn [of_opt bind].
  destruct (row_split r I) as (H1 & H2 & _). rewrite H1, H2. reflexivity.
Qed.
(** Public keys: the post-quantum half of fixed length, then the traditional one. *)
Lemma comp_public_iff r d p : In r all_rows ->
  load_comp_public L K (kr_oid r) d = Ok p <->
  exists b rest t, d = b ++ rest /\ length b = pq_pub_size K (kr_pq r) /\ trad_pub_half L K (kr_trad r) rest t /\
    p = {| kp_dhkem := kr_dhkem r; kp_pq := {| pp_name := kr_pq r; pp_bytes := b |}; kp_trad := with_rfc_pub (kr_dhkem r) t |}.
Proof.
  intro I. rewrite load_comp_public_eq by exact I. pose proof (row_talg r I) as A. split.
  - rewrite bind_ok. intros ([pk rest] & H1 & H). apply pq_from_public_iff in H1. destruct H1 as (N & Le & ->).
    rewrite bind_ok in H. destruct H as (t & Ht & H). apply (read_trad_iff _ _ _ A) in Ht. injection H as <-.
    exists (pp_bytes pk), rest, t. split; [reflexivity|]. split; [exact Le|]. split; [exact Ht|].
    destruct pk as [pn pb]. cbn [pp_name pp_bytes] in *. subst pn. unfold mk_kpub. f_equal.
    destruct (kr_trad r) as [c0|n0], t as [[] c x|k]; cbn [trad_pub_half] in Ht; try contradiction; destruct (kr_dhkem r); reflexivity.
  - intros (b & rest & t & -> & Le & Ht & ->).
    assert (Q : pq_from_public K (kr_pq r) (b ++ rest) = Ok ({| pp_name := kr_pq r; pp_bytes := b |}, rest)).
    { apply pq_from_public_iff. auto. }
    rewrite Q. cbn [bind]. pose proof (proj2 (read_trad_iff _ _ _ A) Ht) as R. rewrite R. cbn [bind]. unfold mk_kpub. do 2 f_equal.
    destruct (kr_trad r) as [c0|n0], t as [[] c x|k]; cbn [trad_pub_half] in Ht; try contradiction; destruct (kr_dhkem r); reflexivity.
Qed.

(** ** Composite private keys *)
Lemma pq_half_iff q d k : pq_from_private L K q (firstn (pq_seed_len K q) d) = Ok k <-> pq_half L K q (firstn (pq_priv_size K q) d) k.
Proof.
  destruct q as [a|n b|n|]; try reflexivity. cbn [pq_from_private pq_half pq_seed_len pq_priv_size]. rewrite bind_ok. split.
  - intros (x & Hx & H). injection H as <-. exists x. split; [|reflexivity]. unfold PqKeyModel.kem_from_private_bytes in Hx.
    destruct (Nat.eqb_spec (length (firstn 64 d)) 64) as [Le|Ne]; [split; [destruct a; exact Le|exact Hx]|]. exfalso.
    assert (Lt : (length (firstn 64 d) < 64)%nat) by (pose proof (firstn_le_length 64 d); lia).
    set (z := length (firstn 64 d)) in *. clearbody z. cbv zeta in Hx.
    assert (Z1 : (z =? PqKeyModel.kem_sk_size a + 64)%nat = false).
    { apply Nat.eqb_neq. destruct a; unfold PqKeyModel.kem_sk_size; lia. }
    assert (Z2 : (z =? PqKeyModel.kem_sk_size a)%nat = false).
    { apply Nat.eqb_neq. destruct a; unfold PqKeyModel.kem_sk_size; lia. }
    rewrite Z1, Z2 in Hx. discriminate Hx.
  - intros (x & (Le & Hx) & ->). exists x. split; [|reflexivity]. unfold PqKeyModel.kem_from_private_bytes.
    assert (Le' : length (firstn 64 d) = 64%nat) by (destruct a; exact Le). rewrite Le', Nat.eqb_refl. exact Hx.
Qed.
Lemma pq_half_name q d k : good_klib K -> pq_half L K q d k -> ps_name k = q.
Proof.
  intros G. destruct q as [a|n b|n|]; cbn [pq_half]; [intros (x & _ & ->); reflexivity|apply (gk_name K G)..].
Qed.
Lemma rsa_size_fix n : In n rsa_sizes -> get_rsa_size n = n.
Proof. intros [<-|[<-|[<-|[]]]]; reflexivity. Qed.
Lemma trad_half_talg a d t : trad_half L K a d t -> talg_of L (trad_public TL t) = a.
Proof.
  destruct a as [c|n], t as [[] c' x|k]; cbn [trad_half]; try contradiction; [intros [-> _]; reflexivity|].
  intros (_ & _ & <-). reflexivity.
Qed.
Lemma mk_kpriv_rfc r q d t : trad_half L K (kr_trad r) d t ->
  mk_kpriv (kr_dhkem r) q t = {| ks_dhkem := kr_dhkem r; ks_pq := q; ks_trad := with_rfc (kr_dhkem r) t |}.
Proof.
  intro Ht. unfold mk_kpriv. f_equal.
  destruct (kr_trad r) as [c0|n0], t as [[] c x|k]; cbn [trad_half] in Ht; try contradiction; destruct (kr_dhkem r); reflexivity.
Qed.
Lemma made_row r q d t : In r all_rows -> ps_name q = kr_pq r -> trad_half L K (kr_trad r) d t ->
  key_row L (comp_public L (mk_kpriv (kr_dhkem r) q t)) r.
Proof.
  intros I N Ht. pose proof (trad_half_talg _ _ _ Ht) as T. split; [exact I|]. destruct t as [rfc c x|k].
  - split; [reflexivity|]. split; [symmetry; exact N|]. rewrite <- T. reflexivity.
  - split; [reflexivity|]. split; [symmetry; exact N|]. rewrite <- T. reflexivity.
Qed.
Lemma made_oid r q d t : In r all_rows -> ps_name q = kr_pq r -> trad_half L K (kr_trad r) d t ->
  comp_priv_oid L (mk_kpriv (kr_dhkem r) q t) = Ok (kr_oid r) /\ comp_oid L (comp_public L (mk_kpriv (kr_dhkem r) q t)) = Ok (kr_oid r).
Proof.
  intros I N Ht. pose proof (proj2 (comp_oid_iff L _ _) (ex_intro _ r (conj (made_row r q d t I N Ht) eq_refl))) as O.
  split; [|exact O]. rewrite comp_priv_oid_eq; [exact O|].
  intros k ->. pose proof (row_talg r I) as A. destruct (kr_trad r) as [c|n]; cbn [trad_half] in Ht; [contradiction|].
  destruct Ht as (_ & _ & <-). apply rsa_size_fix, A.
Qed.
Lemma comp_private_iff r d k : good_klib K -> In r all_rows ->
  load_comp_private L K (row_name r) d = Ok k <->
  exists q t, let n := pq_priv_size K (kr_pq r) in
    pq_half L K (kr_pq r) (firstn n d) q /\ trad_half L K (kr_trad r) (skipn n d) t /\
    k = {| ks_dhkem := kr_dhkem r; ks_pq := q; ks_trad := with_rfc (kr_dhkem r) t |}.
Proof.
  intros G I. cbv zeta. unfold load_comp_private. destruct (row_split r I) as (H1 & _ & H3). rewrite H1, H3. cbn [bind]. cbv zeta.
  assert (Sz : pq_seed_len K (kr_pq r) = pq_priv_size K (kr_pq r)) by (destruct (kr_pq r); reflexivity).
  pose proof (row_talg r I) as A. split.
  - rewrite bind_ok. intros (q & Hq & H). apply pq_half_iff in Hq. rewrite bind_ok in H. destruct H as (t & Ht & H).
    rewrite Sz in Ht. apply (load_trad_iff _ _ _ A) in Ht. rewrite bind_ok in H. destruct H as (u & _ & H). rewrite bind_ok in H. destruct H as (o & _ & H).
    injection H as <-. exists q, t. split; [exact Hq|]. split; [exact Ht|]. apply (mk_kpriv_rfc r q _ t Ht).
  - intros (q & t & Hq & Ht & ->). pose proof (proj2 (pq_half_iff _ _ _) Hq) as Q. rewrite Q. cbn [bind].
    rewrite Sz. pose proof (proj2 (load_trad_iff _ _ _ A) Ht) as T. rewrite T. cbn [bind].
    assert (Gd : negb (kr_dhkem r && match t with SRsa _ => true | _ => false end) = true).
    { destruct t as [rfc c x|k]; [rewrite andb_false_r; reflexivity|]. destruct (kr_trad r) as [c|n] eqn:Tr; cbn [trad_half] in Ht; [contradiction|].
      rewrite (row_rsa r n I Tr). reflexivity. }
    rewrite Gd. cbn [guard bind].
    destruct (made_oid r q _ t I (pq_half_name _ _ _ G Hq) Ht) as [O _]. rewrite O. cbn [bind]. f_equal. apply (mk_kpriv_rfc r q _ t Ht).
Qed.

Lemma trad_pub_eq t x a d d' : trad_half L K a d t -> trad_pub_half L K a d' x -> trad_pub_eqb x (trad_public TL t) = true <-> x = trad_public TL t.
Proof.
  destruct a as [c|n], t as [[] c1 y|k]; cbn [trad_half]; try contradiction; destruct x as [[] c2 z|k']; cbn [trad_pub_half]; try contradiction.
  - intros [-> _] [-> _]. cbn [trad_pub_eqb trad_public]. rewrite bytes_eqb_eq. split; [intros ->; reflexivity|congruence].
  - intros _ _. cbn [trad_pub_eqb trad_public]. rewrite bytes_eqb_eq. split; [intros ->; reflexivity|congruence].
Qed.
Lemma trad_pub_half_talg a d t : trad_pub_half L K a d t -> talg_of L t = a.
Proof.
  destruct a as [c|n], t as [[] c' x|k]; cbn [trad_pub_half]; try contradiction; [intros [-> _]; reflexivity|].
  intros (_ & <-). reflexivity.
Qed.
Lemma eqb_rfc x y b b' : trad_pub_eqb (with_rfc_pub b x) (with_rfc_pub b' y) = trad_pub_eqb x y.
Proof. destruct x, y; reflexivity. Qed.

(** Private keys, with or without a public key. *)
Lemma load_comp_iff r d pub k : good_klib K -> In r all_rows ->
  load_comp L K (kr_oid r) d pub = Ok k <->
  exists q t, let n := pq_priv_size K (kr_pq r) in
    pq_half L K (kr_pq r) (firstn n d) q /\ trad_half L K (kr_trad r) (skipn n d) t /\
    k = {| ks_dhkem := kr_dhkem r; ks_pq := q; ks_trad := with_rfc (kr_dhkem r) t |} /\
    match pub with
    | None => True
    | Some b => exists rest, b = ps_pub q ++ rest /\ length (ps_pub q) = pq_pub_size K (kr_pq r) /\
                  trad_pub_half L K (kr_trad r) rest (trad_public TL t)
    end.
Proof.
  intros G I. cbv zeta. unfold load_comp. rewrite comp_name_of by exact I. cbn [of_opt bind]. rewrite bind_ok.
  assert (Key : forall q t b p rest, pq_half L K (kr_pq r) (firstn (pq_priv_size K (kr_pq r)) d) q ->
    trad_half L K (kr_trad r) (skipn (pq_priv_size K (kr_pq r)) d) t -> trad_pub_half L K (kr_trad r) rest p ->
    comp_pub_eqb L {| kp_dhkem := kr_dhkem r; kp_pq := {| pp_name := kr_pq r; pp_bytes := b |}; kp_trad := with_rfc_pub (kr_dhkem r) p |}
      (comp_public L {| ks_dhkem := kr_dhkem r; ks_pq := q; ks_trad := with_rfc (kr_dhkem r) t |}) = true <-> b = ps_pub q /\ p = trad_public TL t).
  { intros q t b p rest Hq Ht Hp. pose proof (pq_half_name _ _ _ G Hq) as N.
    assert (Pu : comp_public L {| ks_dhkem := kr_dhkem r; ks_pq := q; ks_trad := with_rfc (kr_dhkem r) t |} =
       {| kp_dhkem := kr_dhkem r; kp_pq := {| pp_name := kr_pq r; pp_bytes := ps_pub q |}; kp_trad := with_rfc_pub (kr_dhkem r) (trad_public TL t) |}).
    { unfold comp_public, mk_kpub, pq_public. cbn [ks_dhkem ks_pq ks_trad]. rewrite N. f_equal. destruct t, (kr_dhkem r); reflexivity. }
    rewrite Pu. unfold comp_pub_eqb. cbn [kp_pq kp_trad pp_bytes].
    assert (Nm : comp_name L {| kp_dhkem := kr_dhkem r; kp_pq := {| pp_name := kr_pq r; pp_bytes := b |}; kp_trad := with_rfc_pub (kr_dhkem r) p |} =
      comp_name L {| kp_dhkem := kr_dhkem r; kp_pq := {| pp_name := kr_pq r; pp_bytes := ps_pub q |}; kp_trad := with_rfc_pub (kr_dhkem r) (trad_public TL t) |}).
    { unfold comp_name. cbn [kp_dhkem kp_pq kp_trad pp_name]. rewrite <- !talg_of_name. do 3 f_equal. apply f_equal.
      transitivity (talg_name (talg_of L p)); [destruct p; reflexivity|]. rewrite (trad_pub_half_talg _ _ _ Hp), <- (trad_half_talg _ _ _ Ht). destruct t; reflexivity. }
    rewrite Nm, String.eqb_refl, eqb_rfc. cbn [andb]. rewrite andb_true_iff, bytes_eqb_eq, (trad_pub_eq _ _ _ _ _ Ht Hp). reflexivity. }
  split.
  - intros (k' & Hk & H). apply (comp_private_iff r d k' G I) in Hk. cbv zeta in Hk. destruct Hk as (q & t & Hq & Ht & Ek).
    exists q, t. split; [exact Hq|]. split; [exact Ht|]. destruct pub as [b|].
    + rewrite comp_get in H by exact I. cbn [of_opt bind] in H. rewrite bind_ok in H. destruct H as (p & Hp & H).
      rewrite bind_ok in H. destruct H as (u & Hu & H). rewrite guard_ok in Hu. injection H as <-.
      assert (Hp' : load_comp_public L K (kr_oid r) b = Ok p) by (destruct (load_comp_public L K (kr_oid r) b) as [x|[]]; congruence).
      apply (comp_public_iff r b p I) in Hp'. destruct Hp' as (b0 & rest & x & -> & Le & Hx & Ep). rewrite Ek, Ep in Hu.
      pose proof (proj1 (Key q t b0 x rest Hq Ht Hx) Hu) as [-> ->]. split; [exact Ek|]. exists rest. auto.
    + injection H as <-. auto.
  - intros (q & t & Hq & Ht & -> & Hp). eexists. split.
    + apply (comp_private_iff r d _ G I). cbv zeta. exists q, t. auto.
    + destruct pub as [b|]; [|reflexivity]. destruct Hp as (rest & -> & Le & Hx). rewrite comp_get by exact I. cbn [of_opt bind].
      pose proof (proj2 (comp_public_iff r (ps_pub q ++ rest) _ I) (ex_intro _ (ps_pub q) (ex_intro _ rest (ex_intro _ (trad_public TL t)
        (conj eq_refl (conj Le (conj Hx eq_refl))))))) as P. rewrite P. cbn [bind].
      pose proof (proj2 (Key q t (ps_pub q) (trad_public TL t) rest Hq Ht Hx) (conj eq_refl eq_refl)) as Q. rewrite Q. reflexivity.
Qed.
End Lib.
