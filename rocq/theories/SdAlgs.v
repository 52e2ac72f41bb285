(** Proofs about the tables of SdModel.v: the algorithm of a signature and that of a key, and hash functions. *)
From Coq Require Import String Lia.
From Verif Require Import Prelude PyStr ProtTab CertChainModel BitModel SdModel SdSpec.
From Verif Require Import ProtMac ChamProofs.
Open Scope string_scope.
Open Scope list_scope.

(** Classes of identifiers. *)
Inductive cls := CEcKey | CEd | CRsaKey | CPkcs1 | CPss | CShake | CEcdsa | CComp | CPq | CNone.
Definition cls_eqb (a b : cls) : bool :=
  match a, b with
  | CEcKey, CEcKey | CEd, CEd | CRsaKey, CRsaKey | CPkcs1, CPkcs1 | CPss, CPss | CShake, CShake | CEcdsa, CEcdsa | CComp, CComp
  | CPq, CPq | CNone, CNone => true
  | _, _ => false
  end.
Lemma cls_eqb_iff a b : cls_eqb a b = true <-> a = b.
Proof. destruct a, b; cbn; split; congruence. Qed.
Definition members (c : cls) : list string :=
  match c with
  | CEcKey => ["id_ecPublicKey"] | CEd => eddsa | CRsaKey => ["rsaEncryption"] | CPkcs1 => rsa_pkcs1 | CPss => ["id_RSASSA_PSS"]
  | CShake => ["id_RSASSA_PSS_SHAKE128"; "id_RSASSA_PSS_SHAKE256"] | CEcdsa => ecdsa | CComp => map fst composite_keys
  | CPq => map fst pq_keys | CNone => []
  end.
Definition classes : list cls := [CEcKey; CEd; CRsaKey; CPkcs1; CPss; CShake; CEcdsa; CComp; CPq].
Definition class (o : string) : cls := match find (fun c => str_mem o (members c)) classes with Some c => c | None => CNone end.

Lemma members_class : forallb (fun c => forallb (fun o => cls_eqb (class o) c) (members c)) classes = true.
Proof. vm_compute. reflexivity. Qed.
Lemma In_class o c : c <> CNone -> (In o (members c) <-> class o = c).
Proof.
  intros Hc. assert (Hin : In c classes) by (destruct c; cbn; tauto). split; intros H.
  - pose proof (proj1 (forallb_forall _ _) members_class c Hin) as F. pose proof (proj1 (forallb_forall _ _) F o H) as G.
    apply cls_eqb_iff, G.
  - unfold class in H. destruct (find _ classes) as [c'|] eqn:E; [|congruence]. subst c'.
    apply find_some in E. apply str_mem_In, E.
Qed.
Lemma str_class c o : c <> CNone -> str_mem o (members c) = cls_eqb (class o) c.
Proof.
  intros Hc. destruct (str_mem o (members c)) eqn:E.
  - apply str_mem_In, (In_class o c Hc) in E. symmetry. apply cls_eqb_iff, E.
  - destruct (cls_eqb (class o) c) eqn:F; [|reflexivity]. apply cls_eqb_iff, (In_class o c Hc) in F. apply str_mem_In in F. congruence.
Qed.
Lemma has_str A o (t : list (string * A)) : has o t = str_mem o (map fst t).
Proof.
  unfold has. induction t as [|[k v] t IH]; [reflexivity|]. cbn. destruct (String.eqb o k); [reflexivity|apply IH].
Qed.
Lemma has_In A o (t : list (string * A)) : has o t = true <-> In o (map fst t).
Proof. rewrite has_str. apply str_mem_In. Qed.
Definition sub (a b : list string) : bool := forallb (fun x => str_mem x b) a.
Lemma sub_In a b : sub a b = true -> forall x, In x a -> In x b.
Proof. intros H x Hx. apply str_mem_In. exact (proj1 (forallb_forall _ _) H x Hx). Qed.
Lemma str_same a b : sub a b = true -> sub b a = true -> forall o, str_mem o a = str_mem o b.
Proof.
  intros H1 H2 o. destruct (str_mem o a) eqn:E, (str_mem o b) eqn:F; try reflexivity.
  - apply str_mem_In, (sub_In _ _ H1), str_mem_In in E. congruence.
  - apply str_mem_In, (sub_In _ _ H2), str_mem_In in F. congruence.
Qed.
Lemma has_class A c o (t : list (string * A)) : c <> CNone -> sub (map fst t) (members c) = true -> sub (members c) (map fst t) = true ->
  has o t = cls_eqb (class o) c.
Proof. intros Hc H1 H2. rewrite has_str, (str_same _ _ H1 H2). apply str_class, Hc. Qed.

Lemma has_ecdsa o : has o ECDSA_SHA_OID_2_NAME = cls_eqb (class o) CEcdsa.
Proof. apply has_class; [discriminate|vm_compute; reflexivity..]. Qed.
Lemma has_rsa o : has o RSA_OID_2_NAME = cls_eqb (class o) CPkcs1.
Proof. apply has_class; [discriminate|vm_compute; reflexivity..]. Qed.
Lemma has_comp o : has o COMPOSITE_SIG_OID_TO_NAME = cls_eqb (class o) CComp.
Proof. apply has_class; [discriminate|vm_compute; reflexivity..]. Qed.
Lemma has_pq o : has o PQ_SIG_OID_2_NAME = cls_eqb (class o) CPq.
Proof. apply has_class; [discriminate|vm_compute; reflexivity..]. Qed.
Lemma has_pss o : has o RSASSA_PSS_OID_2_NAME = cls_eqb (class o) CPss || cls_eqb (class o) CShake.
Proof.
  rewrite has_str, <- !str_class by discriminate. unfold str_mem. rewrite <- existsb_app. reflexivity.
Qed.
Lemma eqb_class o c s : c <> CNone -> members c = [s] -> String.eqb o s = cls_eqb (class o) c.
Proof. intros Hc Hs. rewrite <- str_class by exact Hc. rewrite Hs. cbn. symmetry. apply Bool.orb_false_r. Qed.
Lemma ed_class o : str_mem o ["id_Ed25519"; "id_Ed448"] = cls_eqb (class o) CEd.
Proof. apply (str_class CEd). discriminate. Qed.

(** Keys of composite and post-quantum algorithms. *)
Definition skb (keys : list (string * string)) (p k : string) : bool :=
  match lookup p keys, lookup k keys with Some x, Some y => String.eqb x y | _, _ => false end.
Fixpoint nodupb (l : list string) : bool := match l with [] => true | x :: l => negb (str_mem x l) && nodupb l end.
Lemma lookup_keys A (t : list (string * A)) p x : nodupb (map fst t) = true -> (In (p, x) t <-> lookup p t = Some x).
Proof.
  intros H. split; [|apply lookup_In]. induction t as [|[k v] t IH]; [intros []|].
  cbn [map fst nodupb] in H. apply andb_prop in H. destruct H as [H1 H2]. intros [E|E].
  - injection E as -> ->. cbn. now rewrite String.eqb_refl.
  - cbn. destruct (String.eqb p k) eqn:F; [|apply IH; assumption]. apply String.eqb_eq in F. subst k.
    apply (in_map fst) in E. cbn in E. apply str_mem_In in E. rewrite E in H1. discriminate.
Qed.
Lemma skb_iff keys p k : nodupb (map fst keys) = true -> (skb keys p k = true <-> same_key keys p k).
Proof.
  intros H. unfold skb, same_key. split.
  - destruct (lookup p keys) as [x|] eqn:E, (lookup k keys) as [y|] eqn:F; try discriminate.
    intros G. apply String.eqb_eq in G. subst y. exists x. split; apply lookup_In; assumption.
  - intros (x & Hp & Hk). apply lookup_keys in Hp, Hk; try exact H. rewrite Hp, Hk. apply String.eqb_refl.
Qed.
Lemma composite_nodup : nodupb (map fst composite_keys) = true. Proof. vm_compute. reflexivity. Qed.
Lemma pq_nodup : nodupb (map fst pq_keys) = true. Proof. vm_compute. reflexivity. Qed.
Definition res_eqb (r : result bool) (b : bool) : bool := match r with Ok x => Bool.eqb x b | Err _ => false end.
Lemma res_eqb_iff r b : res_eqb r b = true -> r = Ok b.
Proof. destruct r as [x|]; cbn; [|discriminate]. intros H. apply Bool.eqb_prop in H. congruence. Qed.
Lemma composite_all : forallb (fun p => forallb (fun k => res_eqb (composite_fits p k) (skb composite_keys p k)) (map fst composite_keys)) (map fst composite_keys) = true.
Proof. vm_compute. reflexivity. Qed.
Lemma pq_all : forallb (fun p => forallb (fun k => res_eqb (pq_fits p k) (skb pq_keys p k)) (map fst pq_keys)) (map fst pq_keys) = true.
Proof. vm_compute. reflexivity. Qed.
Lemma skb_out keys p k : str_mem k (map fst keys) = false -> skb keys p k = false.
Proof.
  intros H. unfold skb. assert (lookup k keys = None) as ->.
  { rewrite <- has_str in H. unfold has in H. destruct (lookup k keys); [discriminate|reflexivity]. }
  destruct (lookup p keys); reflexivity.
Qed.
Lemma composite_fits_ok p k : class p = CComp -> composite_fits p k = Ok (skb composite_keys p k).
Proof.
  intros Hp. assert (Hi : In p (map fst composite_keys)) by (apply (In_class p CComp); [discriminate|exact Hp]).
  destruct (str_mem k (map fst composite_keys)) eqn:E.
  - apply res_eqb_iff. pose proof (proj1 (forallb_forall _ _) composite_all p Hi) as F. apply (proj1 (forallb_forall _ _) F), str_mem_In, E.
  - rewrite skb_out by exact E. unfold composite_fits.
    assert (has p COMPOSITE_SIG_OID_TO_NAME = true) as Hh by (rewrite has_comp, Hp; reflexivity).
    assert (has k COMPOSITE_SIG_OID_TO_NAME = false) as Hk by (rewrite has_comp, <- (str_class CComp) by discriminate; exact E).
    unfold has in Hh, Hk. destruct (lookup p COMPOSITE_SIG_OID_TO_NAME); [|discriminate].
    destruct (lookup k COMPOSITE_SIG_OID_TO_NAME); [discriminate|reflexivity].
Qed.
Lemma pq_fits_ok p k : class p = CPq -> pq_fits p k = Ok (skb pq_keys p k).
Proof.
  intros Hp. assert (Hi : In p (map fst pq_keys)) by (apply (In_class p CPq); [discriminate|exact Hp]).
  destruct (str_mem k (map fst pq_keys)) eqn:E.
  - apply res_eqb_iff. pose proof (proj1 (forallb_forall _ _) pq_all p Hi) as F. apply (proj1 (forallb_forall _ _) F), str_mem_In, E.
  - rewrite skb_out by exact E. unfold pq_fits.
    assert (has k PQ_SIG_OID_2_NAME = false) as -> by (rewrite has_pq, <- (str_class CPq) by discriminate; exact E).
    reflexivity.
Qed.
Lemma alg_eqb_iff a b : alg_eqb a b = true <-> a = b.
Proof.
  unfold alg_eqb, opt_eqb. destruct a as [o p], b as [o' p']; cbn. split.
  - intros H. apply andb_prop in H. destruct H as [H1 H2]. apply String.eqb_eq in H1. subst.
    destruct p, p'; try discriminate; [apply bytes_eqb_iff in H2; subst|]; reflexivity.
  - intros [= -> ->]. rewrite String.eqb_refl. destruct p'; [apply bytes_eqb_iff|]; reflexivity.
Qed.

(** What [alg_fits] answers, by class. *)
Definition fitsb (p k : alg) : bool :=
  match class (g_oid k), class (g_oid p) with
  | CEcKey, c => cls_eqb c CEcdsa
  | CEd, c => cls_eqb c CEd
  | CRsaKey, c => cls_eqb c CPkcs1 || cls_eqb c CPss || cls_eqb c CShake
  | c, CPkcs1 => cls_eqb c CPkcs1
  | _, CPss => alg_eqb p k
  | _, CShake => String.eqb (g_oid p) (g_oid k)
  | _, CComp => skb composite_keys (g_oid p) (g_oid k)
  | _, CPq => skb pq_keys (g_oid p) (g_oid k)
  | _, _ => alg_eqb p k
  end.
Lemma alg_eqb_sym a b : alg_eqb a b = alg_eqb b a.
Proof.
  pose proof (alg_eqb_iff a b) as H1. pose proof (alg_eqb_iff b a) as H2.
  destruct (alg_eqb a b), (alg_eqb b a); try reflexivity.
  - symmetry. apply H2. symmetry. apply H1. reflexivity.
  - apply H1. symmetry. apply H2. reflexivity.
Qed.
Lemma alg_fits_b p k : alg_fits p k = Ok (fitsb p k).
Proof.
  unfold alg_fits, fitsb, EC_KEY, RSA_KEY. rewrite !ed_class, !has_ecdsa, !has_rsa, !has_pss, !has_comp, !has_pq.
  rewrite (eqb_class _ CEcKey "id_ecPublicKey"), (eqb_class _ CRsaKey "rsaEncryption"), (eqb_class _ CPss "id_RSASSA_PSS")
    by (discriminate || reflexivity).
  pose proof (composite_fits_ok (g_oid p) (g_oid k)) as HC. pose proof (pq_fits_ok (g_oid p) (g_oid k)) as HP.
  rewrite (alg_eqb_sym k p), (String.eqb_sym (g_oid k) (g_oid p)).
  destruct (class (g_oid k)), (class (g_oid p)); cbn [cls_eqb orb];
    first [reflexivity | apply HC; reflexivity | apply HP; reflexivity].
Qed.
Lemma same_class keys c p k : members c = map fst keys -> c <> CNone -> same_key keys p k -> class p = c /\ class k = c.
Proof.
  intros Hm Hc (x & Hp & Hk). split; apply In_class; try exact Hc; rewrite Hm;
    [exact (in_map fst _ _ Hp) | exact (in_map fst _ _ Hk)].
Qed.
Lemma not_listed o : ~ In o (key_oids ++ rsa_pkcs1 ++ rsa_pss ++ map fst pq_keys ++ map fst composite_keys)
  <-> (class o = CEcdsa \/ class o = CNone).
Proof.
  unfold key_oids. change rsa_pss with (members CPss ++ members CShake).
  change ("id_ecPublicKey" :: "rsaEncryption" :: eddsa) with (members CEcKey ++ members CRsaKey ++ members CEd).
  change rsa_pkcs1 with (members CPkcs1). change (map fst pq_keys) with (members CPq). change (map fst composite_keys) with (members CComp).
  rewrite !in_app_iff, !In_class by discriminate. destruct (class o); intuition discriminate.
Qed.
Lemma fitsb_iff p k : fitsb p k = true <-> fits p k.
Proof.
  assert (Hsc := same_class composite_keys CComp (g_oid p) (g_oid k) eq_refl ltac:(discriminate)).
  assert (Hsp := same_class pq_keys CPq (g_oid p) (g_oid k) eq_refl ltac:(discriminate)).
  split.
  - unfold fitsb. destruct (class (g_oid k)) eqn:K, (class (g_oid p)) eqn:P; cbn [cls_eqb orb]; intros H; try discriminate H;
      try (exfalso; apply alg_eqb_iff in H; subst k; congruence);
      try (apply fits_ec; [destruct (proj2 (In_class (g_oid k) CEcKey ltac:(discriminate)) K) as [<-|[]]; reflexivity
                          |apply (In_class _ CEcdsa); [discriminate|assumption]]);
      try (apply fits_ed; apply (In_class _ CEd); [discriminate|assumption|discriminate|assumption]);
      try (apply fits_rsa; [destruct (proj2 (In_class (g_oid k) CRsaKey ltac:(discriminate)) K) as [<-|[]]; reflexivity
                           |change rsa_pss with (members CPss ++ members CShake); change rsa_pkcs1 with (members CPkcs1);
                            rewrite !in_app_iff, !In_class by discriminate; tauto]);
      try (apply fits_pkcs1; apply (In_class _ CPkcs1); [discriminate|assumption|discriminate|assumption]);
      try (apply alg_eqb_iff in H; first
             [apply fits_other; [exact H|apply not_listed; tauto]
             |apply fits_pss; [destruct (proj2 (In_class (g_oid p) CPss ltac:(discriminate)) P) as [<-|[]]; reflexivity|exact H]]);
      try (apply String.eqb_eq in H; apply fits_shake; [apply (In_class _ CShake); [discriminate|assumption]|exact H]);
      try (apply fits_composite; apply skb_iff; [exact composite_nodup|exact H]);
      try (apply fits_pq; apply skb_iff; [exact pq_nodup|exact H]).
  - unfold fitsb. destruct 1 as [H1 H2|H1 H2|H1 H2|H1 H2|H1 H2|H1 H2|H1|H1|H1 H2].
    + apply (In_class _ CEcdsa) in H2; [|discriminate]. rewrite H1, H2. reflexivity.
    + apply (In_class _ CEd) in H1, H2; try discriminate. rewrite H1, H2. reflexivity.
    + change rsa_pss with (members CPss ++ members CShake) in H2. change rsa_pkcs1 with (members CPkcs1) in H2.
      rewrite !in_app_iff, !In_class in H2 by discriminate. rewrite H1. change (class "rsaEncryption") with CRsaKey. cbv iota.
      destruct H2 as [-> | [-> | ->]]; reflexivity.
    + apply (In_class _ CPkcs1) in H1, H2; try discriminate. rewrite H1, H2. reflexivity.
    + subst k. rewrite H1. change (class "id_RSASSA_PSS") with CPss. cbv iota. apply alg_eqb_iff. reflexivity.
    + rewrite <- H2. apply (In_class _ CShake) in H1; [|discriminate]. rewrite H1. apply String.eqb_refl.
    + destruct (Hsp H1) as [-> ->]. apply skb_iff; [exact pq_nodup|exact H1].
    + destruct (Hsc H1) as [-> ->]. apply skb_iff; [exact composite_nodup|exact H1].
    + subst k. apply not_listed in H2. destruct H2 as [-> | ->]; apply alg_eqb_iff; reflexivity.
Qed.
Lemma alg_fits_total p k : exists b, alg_fits p k = Ok b.
Proof. exists (fitsb p k). apply alg_fits_b. Qed.
Lemma alg_fits_iff p k : alg_fits p k = Ok true <-> fits p k.
Proof. rewrite alg_fits_b, <- fitsb_iff. split; congruence. Qed.

(** ** Hash functions *)

Definition universe : list string := map fst sig_hashes.
Definition res_str (r : result string) (s : option string) : bool :=
  match r, s with Ok x, Some y => String.eqb x y | _, _ => false end.
Lemma sig_nodup : nodupb (map fst sig_hashes) = true. Proof. vm_compute. reflexivity. Qed.
Lemma sig_all : forallb (fun o => is_ok (is_signature_alg o) && res_str (digest_hash o) (lookup o sig_hashes)) universe = true.
Proof. vm_compute. reflexivity. Qed.
Definition sig_tables : list string := map fst MSG_SIG_ALG ++ map fst COMPOSITE_SIG_OID_TO_NAME ++ map fst PQ_SIG_OID_2_NAME.
Lemma sig_tables_in : sub sig_tables universe = true. Proof. vm_compute. reflexivity. Qed.
Lemma is_sig_in o : is_signature_alg o = Ok tt -> In o universe.
Proof.
  unfold is_signature_alg. intros H. apply (sub_In _ _ sig_tables_in). unfold sig_tables. rewrite !in_app_iff.
  rewrite <- !has_In. destruct (has o MSG_SIG_ALG), (has o COMPOSITE_SIG_OID_TO_NAME), (has o PQ_SIG_OID_2_NAME); try tauto. discriminate H.
Qed.
Lemma sig_hash_iff o h : (is_signature_alg o = Ok tt /\ digest_hash o = Ok h) <-> In (o, h) sig_hashes.
Proof.
  rewrite (lookup_keys _ sig_hashes o h sig_nodup). split.
  - intros [H1 H2]. pose proof (proj1 (forallb_forall _ _) sig_all o (is_sig_in o H1)) as F. apply andb_prop in F. destruct F as [_ F].
    rewrite H2 in F. unfold res_str in F. destruct (lookup o sig_hashes); [|discriminate]. apply String.eqb_eq in F. now subst.
  - intros H. assert (Hi : In o universe) by (apply lookup_In in H; exact (in_map fst _ _ H)).
    pose proof (proj1 (forallb_forall _ _) sig_all o Hi) as F. apply andb_prop in F. destruct F as [F1 F2]. split.
    + destruct (is_signature_alg o) as [[]|]; [reflexivity|discriminate].
    + rewrite H in F2. destruct (digest_hash o); [|discriminate]. unfold res_str in F2. apply String.eqb_eq in F2. now subst.
Qed.

Definition six : list string := ["sha224"; "sha256"; "sha384"; "sha512"; "shake128"; "shake256"].
Lemma sig_six : forallb (fun x => str_mem (snd x) six) sig_hashes = true. Proof. vm_compute. reflexivity. Qed.
Lemma sig_hash_six o h : In (o, h) sig_hashes -> In h six.
Proof. intros H. pose proof (proj1 (forallb_forall _ _) sig_six _ H) as F. apply str_mem_In, F. Qed.
Lemma six_instance h : In h six -> hash_name_to_instance h = Ok h.
Proof. intros H. repeat destruct H as [<-|H]; try reflexivity. destruct H. Qed.
Lemma sig_not_stateful : forallb (fun o => negb (has o PQ_STATEFUL_OID_2_NAME)) universe = true. Proof. vm_compute. reflexivity. Qed.
Lemma sig_stateless o h : In (o, h) sig_hashes -> has o PQ_STATEFUL_OID_2_NAME = false.
Proof.
  intros H. apply Bool.negb_true_iff. apply (proj1 (forallb_forall _ _) sig_not_stateful). exact (in_map fst _ _ H).
Qed.

(** The identifiers that [get_hash_from_oid] maps to one of the six. *)
Definition hash_table : list (string * string) :=
  hash_ids ++ filter (fun x => str_mem (fst x) (map fst composite_keys)
                               || existsb (fun y => String.eqb (fst y) (fst x) && negb (String.eqb (fst y) (snd y))) pq_keys) sig_hashes.
Lemma hash_table_iff o h : In (o, h) hash_table <-> hash_id o h.
Proof.
  unfold hash_table, hash_id, hash_too. rewrite in_app_iff, filter_In. cbn [fst].
  rewrite Bool.orb_true_iff, str_mem_In, existsb_exists. split; (intros [H|(H & H1)]; [left; exact H|right; split; [exact H|]]).
  - destruct H1 as [H1|([a b] & H1 & H2)]; [left; exact H1|right]. cbn [fst snd] in H2. apply andb_prop in H2. destruct H2 as [H2 H3].
    apply String.eqb_eq in H2. subst a. exists b. split; [exact H1|]. intros ->. rewrite String.eqb_refl in H3. discriminate.
  - destruct H1 as [H1|(k & H1 & H2)]; [left; exact H1|right]. exists (o, k). cbn [fst snd]. split; [exact H1|].
    rewrite String.eqb_refl. apply String.eqb_neq in H2. rewrite H2. reflexivity.
Qed.
Definition res_opt (r : result (option string)) (s : string) : bool :=
  match r with Ok (Some x) => String.eqb x s | _ => false end.
Lemma hash_all : forallb (fun x => res_opt (get_hash_from_oid (fst x) false) (snd x)) hash_table = true.
Proof. vm_compute. reflexivity. Qed.
Definition map_six : list (string * string) :=
  filter (fun x => str_mem (snd x) six) (COMPOSITE_SIG_PREHASH_OID_2_HASH ++ map (fun x => (fst x, last_part (snd x))) PQ_SIG_PRE_HASH_OID_2_NAME ++ OID_HASH_MAP).
Definition pair_in (x : string * string) (l : list (string * string)) : bool :=
  existsb (fun y => String.eqb (fst x) (fst y) && String.eqb (snd x) (snd y)) l.
Lemma pair_in_iff x l : pair_in x l = true -> In x l.
Proof.
  unfold pair_in. rewrite existsb_exists. intros ([a b] & H & E). apply andb_prop in E. destruct E as [E1 E2].
  apply String.eqb_eq in E1, E2. destruct x; cbn in *. now subst.
Qed.
Lemma map_six_in : forallb (fun x => pair_in x hash_table) map_six = true. Proof. vm_compute. reflexivity. Qed.
Lemma in_map_six o h : In h six -> In (o, h) (COMPOSITE_SIG_PREHASH_OID_2_HASH ++ map (fun x => (fst x, last_part (snd x))) PQ_SIG_PRE_HASH_OID_2_NAME ++ OID_HASH_MAP)
  -> In (o, h) hash_table.
Proof.
  intros Hh H. apply pair_in_iff. apply (proj1 (forallb_forall _ _) map_six_in). apply filter_In. split; [exact H|].
  apply str_mem_In, Hh.
Qed.
Lemma get_hash_iff o h : In h six -> (get_hash_from_oid o false = Ok (Some h) <-> hash_id o h).
Proof.
  intros Hh. rewrite <- hash_table_iff. split.
  - unfold get_hash_from_oid. destruct (str_mem o _); [discriminate|].
    destruct (lookup o COMPOSITE_SIG_PREHASH_OID_2_HASH) as [x|] eqn:E.
    { intros H. assert (x = h) by congruence. subst x. apply (in_map_six o h Hh). apply in_app_iff. left. apply lookup_In, E. }
    destruct (lookup o PQ_SIG_PRE_HASH_OID_2_NAME) as [x|] eqn:F.
    { intros H. assert (last_part x = h) by congruence. apply (in_map_six o h Hh). apply in_app_iff. right. apply in_app_iff. left.
      subst h. apply lookup_In in F. exact (in_map (fun x => (fst x, last_part (snd x))) _ _ F). }
    destruct (has o PQ_OID_2_NAME); [discriminate|]. destruct (lookup o OID_HASH_MAP) as [x|] eqn:G; [|discriminate].
    intros H. assert (x = h) by congruence. subst x. apply (in_map_six o h Hh). apply in_app_iff. right. apply in_app_iff. right.
    apply lookup_In, G.
  - intros H. pose proof (proj1 (forallb_forall _ _) hash_all _ H) as F. cbn [fst snd] in F.
    destruct (get_hash_from_oid o false) as [[x|]|]; try discriminate. unfold res_opt in F. apply String.eqb_eq in F. now subst.
Qed.

(** The hash the second check of the signature is made with, unless the key is post-quantum or composite. *)
Definition second_ok (o : string) (h : string) : bool :=
  match get_hash_from_oid o true with
  | Ok None => str_mem o eddsa || str_mem o (map fst pq_keys)
  | Ok (Some x) => String.eqb x h && negb (str_mem o eddsa)
  | Err _ => false
  end.
Lemma second_all : forallb (fun x => second_ok (fst x) (snd x)) sig_hashes = true. Proof. vm_compute. reflexivity. Qed.
Lemma second_hash o h : In (o, h) sig_hashes ->
  (get_hash_from_oid o true = Ok (Some h) /\ ~ In o eddsa) \/ (get_hash_from_oid o true = Ok None /\ (In o eddsa \/ In o (map fst pq_keys))).
Proof.
  intros H. pose proof (proj1 (forallb_forall _ _) second_all _ H) as F. unfold second_ok in F. cbn [fst snd] in F.
  destruct (get_hash_from_oid o true) as [[x|]|]; [left|right|discriminate].
  - apply andb_prop in F. destruct F as [F G]. apply String.eqb_eq in F. subst x. split; [reflexivity|]. intros C. apply str_mem_In in C.
    rewrite C in G. discriminate.
  - split; [reflexivity|]. apply Bool.orb_true_iff in F. rewrite !str_mem_In in F. exact F.
Qed.
