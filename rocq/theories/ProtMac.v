(** Proofs about message authentication codes (properties C87, C88). *)
From Coq Require Import String Ascii Lia.
From Verif Require Import Prelude PreludeFacts PyStr CompLoadModel HdrModel ProtTab ProtModel ProtSpec.
Open Scope string_scope.
Open Scope Z_scope.
Local Notation length := List.length.

(** ** Tables *)

Lemma lookup_In : forall A k (t : list (string * A)) v, lookup k t = Some v -> In (k, v) t.
Proof.
  induction t as [|[x w] t IH]; cbn; intros v H; [discriminate|].
  destruct (String.eqb_spec k x) as [->|]; [inversion H; subst; now left|right; auto].
Qed.
Lemma lookup_None : forall A k (t : list (string * A)), lookup k t = None -> forall v, ~ In (k, v) t.
Proof.
  induction t as [|[x w] t IH]; cbn; intros H v HI; [easy|destruct HI as [E|I]].
  - inversion E; subst. now rewrite String.eqb_refl in H.
  - destruct (String.eqb k x); [discriminate|]. exact (IH H v I).
Qed.
Lemma has_In : forall A k (t : list (string * A)), has k t = true <-> In k (List.map fst t).
Proof.
  intros; unfold has; split; intro H.
  - destruct (lookup k t) eqn:E; [|discriminate]. apply lookup_In in E. now apply (in_map fst) in E.
  - destruct (lookup k t) eqn:E; [reflexivity|]. apply in_map_iff in H as ((x & v) & <- & I).
    now apply (lookup_None _ _ _ E) in I.
Qed.
Lemma has_false : forall A k (t : list (string * A)), has k t = false <-> ~ In k (List.map fst t).
Proof. intros; rewrite <- has_In. destruct (has k t); split; congruence. Qed.
Lemma str_mem_In : forall s l, str_mem s l = true <-> In s l.
Proof.
  induction l as [|x l IH]; cbn; [easy|].
  rewrite orb_true_iff, IH, String.eqb_eq. intuition congruence.
Qed.

(** Enumerates the membership of a pair in a concrete list. *)
Ltac enum H := repeat (destruct H as [H|H]; [inversion H; subst; clear H|]); [..|destruct H].
Ltac split_in H :=
  repeat match type of H with In _ (_ ++ _)%list => apply in_app_or in H; destruct H as [H|H] end.

Lemma hmac_hash_spec : forall o h, hmac_hash o = Some (Ok h) <-> In (o, h) hmacs.
Proof.
  intros o h; unfold hmac_hash; split; intro H.
  - destruct (lookup o HMAC_OID_2_NAME) as [n|] eqn:E; [|discriminate].
    apply lookup_In in E. cbv [HMAC_OID_2_NAME In] in E. enum E; cbv in H; inversion H; subst; cbv [hmacs In]; tauto.
  - cbv [hmacs In] in H. enum H; reflexivity.
Qed.
Lemma hmac_hash_cases : forall o, hmac_hash o = None \/ exists h, hmac_hash o = Some (Ok h).
Proof.
  intros o; unfold hmac_hash. destruct (lookup o HMAC_OID_2_NAME) as [n|] eqn:E; [right|now left].
  apply lookup_In in E. cbv [HMAC_OID_2_NAME In] in E. enum E; eexists; reflexivity.
Qed.
Lemma hmacs_inst : forall o h, In (o, h) hmacs -> hash_name_to_instance h = Ok h.
Proof. intros o h H. cbv [hmacs In] in H. enum H; reflexivity. Qed.
Lemma hmac_ok : forall L o h data k, In (o, h) hmacs -> compute_hmac L data k h = Ok (l_hmac L h k data).
Proof. intros; unfold compute_hmac. now rewrite (hmacs_inst _ _ H). Qed.
Lemma hmacs_fun : forall o h h', In (o, h) hmacs -> In (o, h') hmacs -> h = h'.
Proof. intros o h h' H H'. apply hmac_hash_spec in H, H'. congruence. Qed.
Lemma hmac_none : forall o, ~ In o (List.map fst hmacs) -> hmac_hash o = None.
Proof.
  intros o H. destruct (hmac_hash_cases o) as [E|(h & E)]; [exact E|].
  apply hmac_hash_spec in E. now apply (in_map fst) in E.
Qed.

(** ** Hash functions named by an identifier *)

(** Every identifier that names a hash. *)
Definition hash_oids : list oid :=
  List.map fst (COMPOSITE_SIG_PREHASH_OID_2_HASH ++ PQ_SIG_PRE_HASH_OID_2_NAME ++ OID_HASH_MAP)%list.
Lemma get_hash_dom : forall o b n, get_hash_from_oid o b = Ok (Some n) -> In o hash_oids.
Proof.
  intros o b n H; unfold get_hash_from_oid in H; unfold hash_oids. rewrite !map_app.
  destruct (str_mem o _); [discriminate|].
  destruct (lookup o COMPOSITE_SIG_PREHASH_OID_2_HASH) as [h|] eqn:E1.
  { apply in_or_app; left. apply lookup_In in E1. now apply (in_map fst) in E1. }
  destruct (lookup o PQ_SIG_PRE_HASH_OID_2_NAME) as [m|] eqn:E2.
  { apply in_or_app; right; apply in_or_app; left. apply lookup_In in E2. now apply (in_map fst) in E2. }
  destruct (has o PQ_OID_2_NAME); [discriminate|].
  destruct (lookup o OID_HASH_MAP) as [m|] eqn:E4; [|discriminate].
  apply in_or_app; right; apply in_or_app; right. apply lookup_In in E4. now apply (in_map fst) in E4.
Qed.
Definition chk_owf (o : oid) : bool :=
  match get_hash_from_oid o false with
  | Ok (Some n) =>
      match hash_name_to_instance n, lookup o owf_hashes with Ok h, Some h' => String.eqb h h' | _, _ => false end
  | _ => true
  end.
Lemma chk_owf_all : forallb chk_owf hash_oids = true.
Proof. vm_compute. reflexivity. Qed.
Lemma owf_fwd : forall o n, get_hash_from_oid o false = Ok (Some n) ->
  exists h, hash_name_to_instance n = Ok h /\ In (o, h) owf_hashes.
Proof.
  intros o n H. pose proof (proj1 (forallb_forall _ _) chk_owf_all o (get_hash_dom _ _ _ H)) as C.
  unfold chk_owf in C. rewrite H in C.
  destruct (hash_name_to_instance n) as [h|]; [|discriminate]. destruct (lookup o owf_hashes) as [h'|] eqn:E; [|discriminate].
  apply String.eqb_eq in C; subst h'. exists h; split; auto. now apply lookup_In.
Qed.
Definition chk_owf_back (p : oid * string) : bool :=
  match get_hash_from_oid (fst p) false with
  | Ok (Some n) => match hash_name_to_instance n with Ok h => String.eqb h (snd p) | _ => false end
  | _ => false
  end.
Lemma owf_back : forall o h, In (o, h) owf_hashes ->
  exists n, get_hash_from_oid o false = Ok (Some n) /\ hash_name_to_instance n = Ok h.
Proof.
  intros o h H. assert (A : forallb chk_owf_back owf_hashes = true) by (vm_compute; reflexivity).
  pose proof (proj1 (forallb_forall _ _) A _ H) as C. unfold chk_owf_back in C; cbn [fst snd] in C.
  destruct (get_hash_from_oid o false) as [[n|]|]; try discriminate. exists n; split; auto.
  destruct (hash_name_to_instance n) as [x|]; [|discriminate]. apply String.eqb_eq in C; now subst.
Qed.
(** The hash of a pseudo-random function, as the code reads it twice. *)
Definition chk_prf (o : oid) : bool :=
  match get_hash_from_oid o false with
  | Ok (Some n) =>
      match part1 n with
      | Ok h => match get_hash_from_oid o true, hash_name_to_instance h, lookup o prf_hashes with
                | Ok (Some h1), Ok h2, Some h3 => String.eqb h1 h && String.eqb h2 h && String.eqb h3 h
                | _, _, _ => false
                end
      | Err _ => true
      end
  | _ => true
  end.
Lemma prf_fwd : forall o n h, get_hash_from_oid o false = Ok (Some n) -> part1 n = Ok h ->
  get_hash_from_oid o true = Ok (Some h) /\ hash_name_to_instance h = Ok h /\ In (o, h) prf_hashes.
Proof.
  intros o n h H P. assert (A : forallb chk_prf hash_oids = true) by (vm_compute; reflexivity).
  pose proof (proj1 (forallb_forall _ _) A o (get_hash_dom _ _ _ H)) as C.
  unfold chk_prf in C. rewrite H, P in C.
  destruct (get_hash_from_oid o true) as [[h1|]|]; try discriminate.
  destruct (hash_name_to_instance h) as [h2|]; [|discriminate]. destruct (lookup o prf_hashes) as [h3|] eqn:E; [|discriminate].
  apply andb_prop in C as (C & C3); apply andb_prop in C as (C1 & C2).
  apply String.eqb_eq in C1, C2, C3; subst. repeat split; auto. now apply lookup_In.
Qed.
Definition chk_prf_back (p : oid * string) : bool :=
  match get_hash_from_oid (fst p) false with
  | Ok (Some n) => match part1 n with Ok h => String.eqb h (snd p) | _ => false end
  | _ => false
  end.
Lemma prf_back : forall o h, In (o, h) prf_hashes ->
  exists n, get_hash_from_oid o false = Ok (Some n) /\ part1 n = Ok h.
Proof.
  intros o h H. assert (A : forallb chk_prf_back prf_hashes = true) by (vm_compute; reflexivity).
  pose proof (proj1 (forallb_forall _ _) A _ H) as C. unfold chk_prf_back in C; cbn [fst snd] in C.
  destruct (get_hash_from_oid o false) as [[n|]|]; try discriminate. exists n; split; auto.
  destruct (part1 n) as [x|]; [|discriminate]. apply String.eqb_eq in C; now subst.
Qed.

(** ** Parameters *)

Lemma load_seen : forall A (sel : params -> option A) dec p e x,
  load sel dec (Some e) p = Ok x <->
  (sel p = Some x \/ (sel p = None /\ exists b, (p = PRaw b \/ p = POctets b) /\ dec b = Some (x, []))).
Proof.
  intros A sel dec p e x; unfold load; split.
  - destruct (sel p) as [y|]; [intro H; inversion H; now left|]. intro H; right; split; auto.
    destruct p; try discriminate; exists b; (split; [tauto|]);
      destruct (dec b) as [[y [|z r]]|]; try discriminate; inversion H; reflexivity.
  - intros [->|(-> & b & [->| ->] & ->)]; reflexivity.
Qed.
Ltac seen_tac := intros; rewrite load_seen; unfold seen; split;
  [ intros [H|(_ & b & H & D)];
    [ match type of H with ?f ?q = _ => destruct q; try discriminate end; inversion H; subst; now left
    | right; exists b; split; auto ]
  | intros [->|(b & H & D)]; [left; reflexivity|right; split; [destruct H; subst; reflexivity|exists b; split; auto]] ].
Lemma load_pbmac1 : forall L p e k m,
  load sel_pbmac1 (l_dec_pbmac1 L) (Some e) p = Ok (k, m) <-> seen (l_dec_pbmac1 L) p (PPbmac1 k m) (k, m).
Proof. seen_tac. Qed.
Lemma load_pbkdf2 : forall L p e s i n a,
  load sel_pbkdf2 (l_dec_pbkdf2 L) (Some e) p = Ok (s, i, n, a) <->
  seen (l_dec_pbkdf2 L) p (PPbkdf2 s i n a) (s, i, n, a).
Proof. seen_tac. Qed.
Lemma load_pbm : forall L p e s o i m,
  load sel_pbm (l_dec_pbm L) (Some e) p = Ok (s, o, i, m) <-> seen (l_dec_pbm L) p (PPbm s o i m) (s, o, i, m).
Proof. seen_tac. Qed.
Lemma load_gcm : forall L p e n,
  load sel_gcm (l_dec_gcm L) (Some e) p = Ok n <-> seen (l_dec_gcm L) p (PGcm n) n.
Proof. seen_tac. Qed.

(** ** The code of a message *)

Lemma hash_times_ok : forall L name h, hash_name_to_instance name = Ok h ->
  forall n x, hash_times L n name x = Ok (iterated (l_hash L h) n x).
Proof.
  intros L name h H n; induction n as [|n IH]; intros x; [reflexivity|].
  cbn [hash_times iterated]. unfold compute_hash. rewrite H. cbn [bind]. apply IH.
Qed.
Lemma or_bytes_len : forall s r, or_bytes s r = if Z.of_nat (length s) =? 0 then r else s.
Proof. destruct s; reflexivity. Qed.

Lemma guard_true : forall b e, guard b e = Ok tt -> b = true.
Proof. intros [] e H; [reflexivity|discriminate]. Qed.
Lemma bind_inv : forall A B (r : result A) (k : A -> result B) v,
  (let! x := r in k x) = Ok v -> exists x, r = Ok x /\ k x = Ok v.
Proof. intros A B [x|e] k v H; [eauto|discriminate]. Qed.

Lemma kmac_spec : forall L a data k v,
  (has (a_oid a) KMAC_OID_2_NAME = true /\ compute_kmac_from_alg_id L a data k = Ok v) <->
  (exists h, In (a_oid a, h) kmacs /\ a_params a = PAbsent /\ l_kmac L h k data = Ok v).
Proof.
  intros L a data k v; unfold compute_kmac_from_alg_id; split.
  - intros (K & H). apply bind_inv in H as ([] & G & H). apply guard_true in G.
    assert (P : a_params a = PAbsent) by (destruct (a_params a); cbn in G; congruence).
    destruct (String.eqb_spec (a_oid a) "id_KMACWithSHAKE128") as [E|N1].
    { exists "shake128". rewrite E. repeat split; auto. now left. }
    destruct (String.eqb_spec (a_oid a) "id_KMACWithSHAKE256") as [E|N2]; [|discriminate].
    exists "shake256". rewrite E. repeat split; auto. right; now left.
  - intros (h & I & P & H). rewrite P. cbn [is_absent guard bind].
    destruct I as [I|[I|[]]]; inversion I; subst; split; auto.
Qed.

Lemma pbmac1_spec : forall L p pw data lw v,
  compute_pbmac1_from_param L p pw data false lw = Ok v <->
  exists kp mac mp salt iter n prf hp hm dk,
    seen (l_dec_pbmac1 L) p (PPbmac1 (Alg "id_PBKDF2" kp) (Alg mac mp)) (Alg "id_PBKDF2" kp, Alg mac mp) /\
    seen (l_dec_pbkdf2 L) kp (PPbkdf2 (SaltSpec salt) iter (Some n) prf) (SaltSpec salt, iter, Some n, prf) /\
    In (a_oid prf, hp) prf_hashes /\ In (mac, hm) hmacs /\ l_pbkdf2 L hp pw salt iter n = Ok dk /\
    (lw = true -> hp = hm /\ In hm sha2_names) /\ v = l_hmac L hm dk data.
Proof.
  intros L p pw data lw v; unfold compute_pbmac1_from_param; cbv zeta; split.
  - intro H. apply bind_inv in H as ((kdf & mac) & H1 & H). apply load_pbmac1 in H1.
    apply bind_inv in H as ([] & G & H). apply guard_true in G. cbn [orb] in G. apply String.eqb_eq in G.
    apply bind_inv in H as ((((salt & iter) & n) & prf) & H2 & H). apply load_pbkdf2 in H2.
    destruct (hmac_hash_cases (a_oid mac)) as [E|(hm & E)]; rewrite E in H; [discriminate|]. cbn [bind snd] in H.
    apply hmac_hash_spec in E.
    apply bind_inv in H as (pn & H3 & H). apply bind_inv in H as (ph & H4 & H).
    destruct pn as [pn|]; [|discriminate].
    destruct (prf_fwd _ _ _ H3 H4) as (P1 & P2 & P3).
    apply bind_inv in H as ([] & G1 & H). apply guard_true in G1.
    apply bind_inv in H as ([] & G2 & H). apply guard_true in G2.
    apply bind_inv in H as (dk & H5 & H). rewrite (hmac_ok _ _ _ _ _ E) in H.
    unfold compute_pbkdf2_from_parameter in H5.
    apply bind_inv in H5 as (s & S1 & H5). destruct salt as [sb|]; [|discriminate]. inversion S1; subst s; clear S1.
    apply bind_inv in H5 as (kl & S2 & H5). destruct n as [kn|]; [|discriminate]. inversion S2; subst kl; clear S2.
    rewrite P1 in H5. cbn [bind] in H5. rewrite P2 in H5. cbn [bind] in H5.
    destruct kdf as [ko kp]; cbn in G; subst ko. destruct mac as [mo mp]. cbn [a_params a_oid] in *.
    exists kp, mo, mp, sb, iter, kn, prf, ph, hm, dk. repeat split; auto.
    + subst lw. rewrite orb_false_r in G1. now apply String.eqb_eq in G1.
    + subst lw. cbn [negb orb] in G2. unfold is_sha2 in G2.
      destruct E as [E|E]; [inversion E; subst; discriminate G2|].
      cbv [hmacs In] in E. enum E; try discriminate G2; cbv [sha2_names In]; tauto.
    + congruence.
  - intros (kp & mac & mp & salt & iter & n & prf & hp & hm & dk & S1 & S2 & I1 & I2 & D & LW & ->).
    apply load_pbmac1 with (e := EBadAsn1Data) in S1. rewrite S1. cbn [bind a_oid a_params].
    change (String.eqb "id_PBKDF2" "id_PBKDF2") with true. cbn [orb guard bind].
    apply load_pbkdf2 with (e := EBadAsn1Data) in S2. rewrite S2. cbn [bind snd].
    rewrite (proj2 (hmac_hash_spec _ _) I2). cbn [bind].
    destruct (prf_back _ _ I1) as (pn & B1 & B2). destruct (prf_fwd _ _ _ B1 B2) as (P1 & P2 & P3).
    rewrite B1. cbn [bind]. rewrite B2. cbn [bind].
    assert (G1 : String.eqb hp hm || negb lw = true).
    { destruct lw; cbn [negb]; [|apply orb_true_r]. destruct (LW eq_refl) as (-> & _). now rewrite String.eqb_refl. }
    rewrite G1. cbn [guard bind].
    assert (G2 : negb lw || is_sha2 hm = true).
    { destruct lw; cbn [negb]; [|reflexivity]. destruct (LW eq_refl) as (_ & I).
      cbv [sha2_names In] in I. destruct I as [<-|[<-|[<-|[<-|[]]]]]; reflexivity. }
    rewrite G2. cbn [guard bind]. unfold compute_pbkdf2_from_parameter. cbn [bind].
    rewrite P1. cbn [bind]. rewrite P2. cbn [bind]. rewrite D. cbn [bind]. apply (hmac_ok _ _ _ _ _ I2).
Qed.

(** The PasswordBasedMac branch. *)
Definition pbm_mac (L : lib) (rnd : Z -> bytes) (p : params) (password data : bytes) (lw : bool) : result bytes :=
  symmetric_mac L rnd (Alg "id_PasswordBasedMac" p) password data lw.
Definition bare_hashes : list (oid * string) := (sha1_sha2 ++ sha3 ++ pq_sig_hashes ++ comp_hashes)%list.
Definition chk_bare (o : oid) : bool :=
  match get_hash_from_oid o false with
  | Ok (Some n) =>
      match hash_name_to_instance n with
      | Ok h => if String.eqb n h
                then match lookup o bare_hashes with Some h' => String.eqb h h' | None => false end
                else negb (has o bare_hashes) && has_char "-"%char n
      | _ => false
      end
  | _ => true
  end.
Lemma bare_fwd : forall o h, get_hash_from_oid o false = Ok (Some h) -> has_char "-"%char h = false ->
  In (o, h) bare_hashes.
Proof.
  intros o h H NC. assert (A : forallb chk_bare hash_oids = true) by (vm_compute; reflexivity).
  pose proof (proj1 (forallb_forall _ _) A o (get_hash_dom _ _ _ H)) as C.
  unfold chk_bare in C. rewrite H in C.
  destruct (hash_name_to_instance h) as [y|]; [|discriminate C].
  destruct (String.eqb h y) eqn:Q.
  - apply String.eqb_eq in Q. subst y. destruct (lookup o bare_hashes) as [x|] eqn:E; [|discriminate]. apply String.eqb_eq in C; subst x. now apply lookup_In.
  - rewrite NC, andb_false_r in C. discriminate.
Qed.
Definition chk_bare_back (p : oid * string) : bool :=
  match get_hash_from_oid (fst p) false with Ok (Some n) => String.eqb n (snd p) | _ => false end.
Lemma bare_back : forall o h, In (o, h) bare_hashes -> get_hash_from_oid o false = Ok (Some h).
Proof.
  intros o h H. assert (A : forallb chk_bare_back bare_hashes = true) by (vm_compute; reflexivity).
  pose proof (proj1 (forallb_forall _ _) A _ H) as C. unfold chk_bare_back in C; cbn [fst snd] in C.
  destruct (get_hash_from_oid o false) as [[n|]|]; [apply String.eqb_eq in C; congruence|discriminate C|discriminate C].
Qed.
Lemma sha2_names_spec : forall o h, In (o, h) hmacs -> (is_sha2 h = true <-> In h sha2_names).
Proof.
  intros o h H. cbv [hmacs In] in H. enum H; vm_compute; split; intro X; try discriminate X; try reflexivity; try tauto;
    exfalso; repeat (destruct X as [X|X]; [discriminate X|]); exact X.
Qed.
Lemma hmacs_no_dash : forall o h, In (o, h) hmacs -> has_char "-"%char h = false.
Proof. intros o h H. cbv [hmacs In] in H. enum H; reflexivity. Qed.
Lemma pbm_spec : forall L rnd p pw data lw v,
  pbm_mac L rnd p pw data lw = Ok v <->
  exists salt owf iter mac ho hm,
    seen (l_dec_pbm L) p (PPbm salt owf iter mac) (salt, owf, iter, mac) /\
    In (a_oid owf, ho) owf_hashes /\ In (a_oid mac, hm) hmacs /\
    (lw = true -> In (a_oid owf, hm) bare_hashes /\ In hm sha2_names) /\
    v = l_hmac L hm (iterated (l_hash L ho) (Z.to_nat iter) (pw ++ (if Z.of_nat (length salt) =? 0 then rnd 16 else salt))%list) data.
Proof.
  intros L rnd p pw data lw v; unfold pbm_mac, symmetric_mac; cbn [a_oid a_params].
  change (hmac_hash "id_PasswordBasedMac") with (@None (result string)). cbv iota.
  change (has "id_PasswordBasedMac" KMAC_OID_2_NAME) with false.
  change (String.eqb "id_PasswordBasedMac" "id_PBMAC1") with false.
  change (String.eqb "id_PasswordBasedMac" "id_PasswordBasedMac") with true. cbv iota. split.
  - intro H. apply bind_inv in H as ((((salt & owf) & iter) & mac) & H1 & H). apply load_pbm in H1.
    apply bind_inv in H as (on & H2 & H). destruct on as [on|]; [|discriminate].
    destruct (hmac_hash_cases (a_oid mac)) as [E|(hm & E)]; rewrite E in H; [discriminate|]. cbn [bind] in H.
    apply hmac_hash_spec in E.
    apply bind_inv in H as ([] & G1 & H). apply guard_true in G1.
    apply bind_inv in H as ([] & G2 & H). apply guard_true in G2.
    destruct (owf_fwd _ _ H2) as (ho & N & I).
    unfold compute_password_based_mac in H. rewrite (hash_times_ok _ _ _ N) in H. cbn [bind] in H.
    rewrite (hmac_ok _ _ _ _ _ E), or_bytes_len in H.
    exists salt, owf, iter, mac, ho, hm. repeat split; auto.
    + subst lw. rewrite orb_false_r in G1. apply String.eqb_eq in G1. subst on.
      apply bare_fwd; auto. now apply hmacs_no_dash in E.
    + subst lw. now apply (sha2_names_spec _ _ E).
    + inversion H; reflexivity.
  - intros (salt & owf & iter & mac & ho & hm & S & I1 & I2 & LW & ->).
    apply load_pbm with (e := EBadAsn1Data) in S. rewrite S. cbn [bind].
    destruct (owf_back _ _ I1) as (on & B1 & B2). rewrite B1. cbn [bind].
    rewrite (proj2 (hmac_hash_spec _ _) I2). cbn [bind].
    assert (G1 : String.eqb hm on || negb lw = true).
    { destruct lw; [|apply orb_true_r]. destruct (LW eq_refl) as (B & _). apply bare_back in B.
      assert (on = hm) by congruence. subst. now rewrite String.eqb_refl. }
    rewrite G1. cbn [guard bind].
    assert (G2 : negb lw || is_sha2 hm = true).
    { destruct lw; [|reflexivity]. destruct (LW eq_refl) as (_ & B). now apply (sha2_names_spec _ _ I2). }
    rewrite G2. cbn [guard bind]. unfold compute_password_based_mac. rewrite (hash_times_ok _ _ _ B2). cbn [bind].
    rewrite or_bytes_len. apply (hmac_ok _ _ _ _ _ I2).
Qed.

Lemma symmetric_eq : forall L rnd a pw data lw, symmetric_mac L rnd a pw data lw =
  match hmac_hash (a_oid a) with
  | Some hr => let! h := hr in compute_hmac L data pw h
  | None =>
      if has (a_oid a) KMAC_OID_2_NAME then compute_kmac_from_alg_id L a data pw
      else if String.eqb (a_oid a) "id_PBMAC1" then compute_pbmac1_from_param L (a_params a) pw data false lw
      else if String.eqb (a_oid a) "id_PasswordBasedMac" then pbm_mac L rnd (a_params a) pw data lw
      else if has (a_oid a) AES_GMAC_OID_2_NAME then
        let! nonce := load sel_gcm (l_dec_gcm L) (Some EBadAsn1Data) (a_params a) in l_gmac L pw nonce data
      else if String.eqb (a_oid a) "id_DHBasedMac" then compute_dh_based_mac_from_alg_id L pw a data
      else Err EBadAlg
  end.
Proof.
  intros. unfold symmetric_mac at 1. destruct (hmac_hash (a_oid a)); [reflexivity|].
  destruct (has (a_oid a) KMAC_OID_2_NAME); [reflexivity|].
  destruct (String.eqb (a_oid a) "id_PBMAC1"); [reflexivity|].
  destruct (String.eqb (a_oid a) "id_PasswordBasedMac"); reflexivity.
Qed.

(** ** Exactness *)

Theorem symmetric_exact : forall L rnd a pw data v, a_oid a <> "id_DHBasedMac" ->
  (symmetric_mac L rnd a pw data false = Ok v <-> mac_value L (rnd 16) a pw data v).
Proof.
  intros L rnd a pw data v ND; rewrite symmetric_eq; split.
  - intro H. destruct (hmac_hash_cases (a_oid a)) as [E|(h & E)]; rewrite E in H.
    2:{ apply hmac_hash_spec in E. cbn [bind] in H. rewrite (hmac_ok _ _ _ _ _ E) in H.
        inversion H; subst. destruct a; now apply MV_hmac. }
    destruct (has (a_oid a) KMAC_OID_2_NAME) eqn:K.
    { destruct (proj1 (kmac_spec L a data pw v) (conj K H)) as (h & I & P & D).
      destruct a as [o p]; cbn in *; subst p. now apply MV_kmac with h. }
    destruct (String.eqb_spec (a_oid a) "id_PBMAC1") as [E1|].
    { apply pbmac1_spec in H as (kp & mac & mp & salt & iter & n & prf & hp & hm & dk & S1 & S2 & I1 & I2 & D & _ & ->).
      destruct a as [o p]; cbn in *; subst o. exact (MV_pbmac1 L _ p kp mac salt iter n prf hp hm pw data dk mp S1 S2 I1 I2 D). }
    destruct (String.eqb_spec (a_oid a) "id_PasswordBasedMac") as [E1|].
    { apply pbm_spec in H as (salt & owf & iter & mac & ho & hm & S & I1 & I2 & _ & ->).
      destruct a as [o p]; cbn in *; subst o. exact (MV_pbm L _ p salt owf iter mac ho hm pw data S I1 I2). }
    destruct (has (a_oid a) AES_GMAC_OID_2_NAME) eqn:G.
    { apply bind_inv in H as (nonce & H1 & H). apply load_gcm in H1.
      destruct a as [o p]; cbn in *. apply has_In in G. exact (MV_gmac L _ o p nonce pw data v G H1 H). }
    destruct (String.eqb_spec (a_oid a) "id_DHBasedMac") as [E1|]; [contradiction|discriminate].
  - intro H; destruct H; cbn [a_oid a_params].
    + rewrite (proj2 (hmac_hash_spec _ _) H). cbn [bind]. apply (hmac_ok _ _ _ _ _ H).
    + assert (E : hmac_hash o = None) by (destruct H as [H|[H|[]]]; inversion H; reflexivity). rewrite E.
      destruct (proj2 (kmac_spec L (Alg o PAbsent) data pw v)) as (K & C); [exists h; auto|]. cbn [a_oid] in K. now rewrite K.
    + apply load_gcm with (e := EBadAsn1Data) in H0. rewrite H0. cbn [bind].
      destruct H as [<-|[<-|[<-|[]]]]; exact H1.
    + change (hmac_hash "id_PBMAC1") with (@None (result string)). cbv iota.
      change (has "id_PBMAC1" KMAC_OID_2_NAME) with false.
      change (String.eqb "id_PBMAC1" "id_PBMAC1") with true. cbv iota.
      apply pbmac1_spec. exists kp, mac, mp, salt, iter, n, prf, hp, hm, dk. repeat split; auto; discriminate.
    + change (hmac_hash "id_PasswordBasedMac") with (@None (result string)). cbv iota.
      change (has "id_PasswordBasedMac" KMAC_OID_2_NAME) with false.
      change (String.eqb "id_PasswordBasedMac" "id_PBMAC1") with false.
      change (String.eqb "id_PasswordBasedMac" "id_PasswordBasedMac") with true. cbv iota.
      apply pbm_spec. exists salt, owf, iter, mac, ho, hm. repeat split; auto; discriminate.
Qed.
