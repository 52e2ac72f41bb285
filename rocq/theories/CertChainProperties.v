(** Properties C46, C72-C74: certificate chains, their order in extraCerts, and
    trust. *)
From Coq Require Import String.
From Verif Require Import Prelude CertChainModel CertChainSpec CertChainProofs CertChainMore.

(** A toy PKI: certificate [n], issued by certificate [k]; names as given. *)
Definition tc (n k : Z) (sub iss : Z) : cert :=
  {| c_der := [k; n]; c_issuer := [iss]; c_subject := [sub]; c_name := "CN"; c_serial := n |}.
Definition E0 : env :=
  {| e_load := fun c => if (c_serial c =? 99)%Z then Err EBadAlg else Ok tt;
     e_hash := fun _ => Ok tt;
     e_verify := fun i c => if (nth 0 (c_der c) 0 =? c_serial i)%Z then Ok tt else Err EInvalidSignature |}.

Definition ee1 := tc 1 2 11 12.
Definition ca2 := tc 2 3 12 13.
Definition root3 := tc 3 3 13 13.

(** ** C46: building a chain *)

Theorem C46_chain : forall E ee pool must ch, build_chain_from_list E ee pool must = Ok ch ->
  exists rest, ch = ee :: rest /\
    consecutive (first_issuer E pool) ch /\
    (List.length rest <= List.length pool + 1)%nat /\
    (forall c, In c (removelast rest) -> ~ same_names c) /\
    (same_names (last rest ee) \/ no_issuer E pool (last rest ee) \/
     List.length rest = (List.length pool + 1)%nat) /\
    (must = true -> same_names (last rest ee)) /\
    (signed_by E ee ee -> rest = []).
Proof. exact build_chain_spec. Qed.
Print Assumptions C46_chain.

(** Without repetition the chain ends only where it has to. *)
Theorem C46_stops : forall E ee pool must rest, build_chain_from_list E ee pool must = Ok (ee :: rest) ->
  NoDup rest -> same_names (last rest ee) \/ no_issuer E pool (last rest ee).
Proof. exact build_chain_stops. Qed.
Print Assumptions C46_stops.

(** An unambiguous chain in the pool, in whatever order, is found. *)
Theorem C46_complete : forall E ee rest pool must,
  consecutive (only_issuer E pool) (ee :: rest) -> rest <> [] ->
  (List.length rest <= List.length pool + 1)%nat ->
  (forall x, In x (removelast rest) -> ~ same_names x) -> same_names (last rest ee) ->
  ~ signed_by E ee ee -> checkable E ee ee ->
  (forall x j, In x (ee :: removelast rest) -> In j pool -> checkable E x j) ->
  build_chain_from_list E ee pool must = Ok (ee :: rest).
Proof. exact build_chain_complete. Qed.
Print Assumptions C46_complete.

(** It always comes to an end with a chain or the documented error. *)
Theorem C46_total : forall E ee pool must,
  (forall c i, In c (ee :: pool) -> In i (ee :: pool) -> checkable E c i) ->
  (exists ch, build_chain_from_list E ee pool must = Ok ch) \/
  (must = true /\ build_chain_from_list E ee pool must = Err EValueError).
Proof. exact build_chain_total. Qed.
Print Assumptions C46_total.

Theorem C46_message : forall E extra ca_pubs issued ee for_issued must ch,
  build_cmp_chain E extra ca_pubs issued ee for_issued must = Ok ch ->
  exists certs c, extra = Some certs /\
    (if for_issued then issued = Ok c else ee = Some c \/ (ee = None /\ exists l, certs = c :: l)) /\
    build_chain_from_list E c
      (if for_issued then certs ++ match ca_pubs with Some l => l | None => [] end else certs)
      (if for_issued then false else must) = Ok ch.
Proof. exact build_cmp_chain_spec. Qed.
Print Assumptions C46_message.

(** must_be_self_signed compares names only: a chain that ends in a
    certificate issued by someone else of the same name passes. *)
Theorem C46_self_signed_refuted : ~ (forall E ee pool rest,
  build_chain_from_list E ee pool true = Ok (ee :: rest) -> signed_by E (last rest ee) (last rest ee)).
Proof.
  intros H. pose proof (H E0 ee1 [tc 2 7 12 12] [tc 2 7 12 12] eq_refl) as [_ [_ [_ X]]]. discriminate.
Qed.
Print Assumptions C46_self_signed_refuted.

(** A pool with a cycle gives a chain with repetitions. *)
Theorem C46_repetition_refuted : ~ (forall E ee pool must ch,
  NoDup (ee :: pool) -> build_chain_from_list E ee pool must = Ok ch -> NoDup ch).
Proof.
  intros H.
  assert (NoDup [ee1; tc 2 3 12 13; tc 3 2 13 12]) as N.
  { repeat constructor; cbn; intros X; repeat destruct X as [X|X]; try discriminate; assumption. }
  pose proof (H E0 ee1 [tc 2 3 12 13; tc 3 2 13 12] false _ N eq_refl) as D.
  cbn in D. inversion D as [|? ? _ D2]; subst. inversion D2 as [|? ? D3 _]; subst. apply D3. cbn. auto.
Qed.
Print Assumptions C46_repetition_refuted.

(** A certificate of the right name whose key cannot be loaded hides the real
    issuer behind it. *)
Theorem C46_unreadable_refuted : ~ (forall E ee pool i,
  In i pool -> signed_by E ee i -> same_names i -> checkable E ee ee ->
  exists ch, build_chain_from_list E ee pool false = Ok ch).
Proof.
  intros H. destruct (H E0 (tc 1 3 11 13) [tc 99 99 13 13; root3] root3) as [ch X].
  - right; left; reflexivity.
  - repeat split.
  - reflexivity.
  - intros X. discriminate.
  - discriminate.
Qed.
Print Assumptions C46_unreadable_refuted.

Example C46_ex : build_chain_from_list E0 ee1 [root3; tc 8 9 12 13; ca2] true = Ok [ee1; ca2; root3]
  /\ build_chain_from_list E0 ee1 [ca2] false = Ok [ee1; ca2]
  /\ build_chain_from_list E0 ee1 [ca2] true = Err EValueError
  /\ build_chain_from_list E0 root3 [ca2; root3] true = Ok [root3].
Proof. repeat split; reflexivity. Qed.

Example C46_ex_complete :
  consecutive (only_issuer E0 [root3; tc 8 9 12 13; ca2]) [ee1; ca2; root3]
  /\ ~ signed_by E0 ee1 ee1 /\ ~ same_names ca2 /\ same_names root3
  /\ (forall x j, In x [ee1; ca2] -> In j [root3; tc 8 9 12 13; ca2] -> checkable E0 x j).
Proof.
  split.
  - repeat split; cbn; auto.
    + intros j [<-|[<-|[<-|[]]]] [A [_ [_ B]]]; try reflexivity; discriminate.
    + intros j [<-|[<-|[<-|[]]]] [A [_ [_ B]]]; try reflexivity; discriminate.
  - split; [intros [A _]; discriminate|]. split; [discriminate|]. split; [reflexivity|].
    intros x j [<-|[<-|[]]] [<-|[<-|[<-|[]]]] N; repeat split; cbn; auto.
Qed.

(** ** C72: order of the chain in extraCerts *)

Theorem C72_exact : forall extra chain,
  check_single_chain_is_ordered extra chain false = Ok true <->
  exists p ps, Forall2 (at_position extra) chain (p :: ps) /\
    forall i q, nth_error ps i = Some q -> q = (p + i + 1)%nat \/ (q < p + i)%nat.
Proof. exact ordered_iff. Qed.
Print Assumptions C72_exact.

(** Every correctly ordered chain passes. *)
Theorem C72_ordered_passes : forall extra chain ps,
  chain <> [] -> Forall2 (at_position extra) chain ps -> consecutive follows ps ->
  check_single_chain_is_ordered extra chain false = Ok true.
Proof. exact ordered_accepted. Qed.
Print Assumptions C72_ordered_passes.

(** If the chain starts at the first position (as it has to for the protection
    certificate), exactly the chain in its natural order passes. *)
Theorem C72_from_first : forall extra chain ps,
  Forall2 (at_position extra) chain (O :: ps) -> NoDup (O :: ps) ->
  (check_single_chain_is_ordered extra chain false = Ok true <-> O :: ps = seq 0 (List.length chain)).
Proof. exact ordered_from_first. Qed.
Print Assumptions C72_from_first.

Theorem C72_issued : forall extra c chain,
  check_single_chain_is_ordered extra (c :: chain) true = check_single_chain_is_ordered extra chain false.
Proof. reflexivity. Qed.
Print Assumptions C72_issued.

(** In general an unordered chain can pass: the position compared with is
    advanced by one instead of being set to that of the issuer. *)
Definition t (n : Z) : cert := tc n (n + 1) n (n + 1).
Theorem C72_sound_refuted : ~ (forall extra chain ps,
  Forall2 (at_position extra) chain ps ->
  check_single_chain_is_ordered extra chain false = Ok true -> consecutive follows ps).
Proof.
  intros H.
  assert (Forall2 (at_position [t 2; t 9; t 3; t 1]) [t 1; t 2; t 3] [3%nat; 0%nat; 2%nat]) as F.
  { repeat constructor; apply get_index_iff; reflexivity. }
  pose proof (H _ _ _ F eq_refl) as [_ [[X|X] _]]; [discriminate|lia].
Qed.
Print Assumptions C72_sound_refuted.

Example C72_ex : check_single_chain_is_ordered [t 1; t 2; t 3] [t 1; t 2; t 3] false = Ok true
  /\ check_single_chain_is_ordered [t 1; t 3; t 2] [t 1; t 2; t 3] false = Ok false
  /\ check_single_chain_is_ordered [t 2; t 3; t 1] [t 1; t 2; t 3] false = Ok true
  /\ check_single_chain_is_ordered [t 1; t 3] [t 1; t 2; t 3] false = Err EValueError
  /\ check_single_chain_is_ordered [t 1] [t 1] true = Err EIndexError.
Proof. repeat split; reflexivity. Qed.

(** ** C73: extraCerts *)

Theorem C73_response : forall E eku m extra issued allow,
  x_type m = Mcert_response -> x_extra m = Some extra -> x_issued m = Ok issued ->
  (forall c i, In c (issued :: extra) -> In i (issued :: extra) -> checkable E c i) ->
  (validate_extra_certs E eku m allow = Ok tt <->
   ~ signed_by E issued issued /\
   (exists i, first_issuer E extra issued i /\ eku i = Ok tt) /\
   (x_sig m = Ok false \/
    (x_sig m = Ok true /\ x_prot m = Ok tt /\ x_verify m = Ok tt /\ extra <> []))).
Proof. exact extra_response_iff. Qed.
Print Assumptions C73_response.

Theorem C73_absent : forall E eku m allow,
  x_extra m = None ->
  (validate_extra_certs E eku m allow = Ok tt <->
   x_type m = Mshort \/
   (x_type m = Mother /\ (x_sig m = Ok false \/ (x_sig m = Ok true /\ x_prot m = Ok tt /\ allow = true)))).
Proof. exact extra_absent_iff. Qed.
Print Assumptions C73_absent.

Theorem C73_other : forall E eku m extra allow,
  x_type m <> Mcert_response -> x_extra m = Some extra ->
  (forall c i, In c extra -> In i extra -> checkable E c i) ->
  (validate_extra_certs E eku m allow = Ok tt <->
   x_sig m = Ok false \/ (x_sig m = Ok true /\ x_prot m = Ok tt /\ x_verify m = Ok tt /\ extra <> [])).
Proof. exact extra_other_iff. Qed.
Print Assumptions C73_other.

(** The order of the chain does not matter for the outcome. *)
Theorem C73_order_refuted : ~ (forall E eku m extra c allow ch,
  validate_extra_certs E eku m allow = Ok tt -> x_sig m = Ok true ->
  x_extra m = Some (c :: extra) -> build_chain_from_list E c (c :: extra) false = Ok ch ->
  check_single_chain_is_ordered (c :: extra) ch false = Ok true).
Proof.
  intros H.
  pose proof (H E0 (fun _ => Ok tt)
    {| x_type := Mother; x_extra := Some [ee1; root3; ca2]; x_issued := Err EValueError;
       x_sig := Ok true; x_prot := Ok tt; x_verify := Ok tt |}
    [root3; ca2] ee1 false [ee1; ca2; root3] eq_refl eq_refl eq_refl eq_refl) as X. discriminate.
Qed.
Print Assumptions C73_order_refuted.

Theorem C73_protection_cert : forall v extra k,
  find_right_cert_pos v extra = Ok (Some k) <->
  (exists c, nth_error extra k = Some c /\ v c = Ok tt) /\
  forall j c, (j < k)%nat -> nth_error extra j = Some c ->
    v c = Err EValueError \/ v c = Err EUnicode \/ v c = Err EInvalidSignature \/ v c = Err EInvalidAltSignature.
Proof. exact right_pos_iff. Qed.
Print Assumptions C73_protection_cert.

Example C73_ex :
  validate_extra_certs E0 (fun c => if (c_serial c =? 2)%Z then Ok tt else Err EValueError)
    {| x_type := Mcert_response; x_extra := Some [root3; ca2]; x_issued := Ok ee1;
       x_sig := Ok true; x_prot := Ok tt; x_verify := Ok tt |} false = Ok tt
  /\ validate_extra_certs E0 (fun _ => Ok tt)
    {| x_type := Mcert_response; x_extra := Some [root3]; x_issued := Ok ee1;
       x_sig := Ok true; x_prot := Ok tt; x_verify := Ok tt |} false = Err EValueError
  /\ (forall c i, In c [ee1; root3; ca2] -> In i [ee1; root3; ca2] -> checkable E0 c i)
  /\ find_right_cert_pos (fun c => if (c_serial c =? 2)%Z then Ok tt else Err EInvalidSignature) [ee1; ca2; ca2] = Ok (Some 1%nat).
Proof.
  split; [reflexivity|]. split; [reflexivity|]. split; [|reflexivity].
  intros c i [<-|[<-|[<-|[]]]] [<-|[<-|[<-|[]]]] N; repeat split; cbn; auto.
Qed.

(** ** C74: trust *)

Theorem C74_anchors : forall certs dir os allow,
  certificates_are_trustanchors certs dir os allow = Ok tt <->
  (exists a, (exists l, dir = Some l /\ In a l) \/ (allow = true /\ In a os)) /\
  forall c, In c certs -> exists a, c_der a = c_der c /\
    ((exists l, dir = Some l /\ In a l) \/ (allow = true /\ In a os)).
Proof. exact anchors_iff. Qed.
Print Assumptions C74_anchors.

Theorem C74_trusted : forall chain ee l os allow openssl usage,
  (certificates_must_be_trusted (ee :: chain) (Some l) os allow openssl usage = Ok tt <->
   (exists a, c_der a = c_der (last chain ee) /\ (In a l \/ (allow = true /\ In a os))) /\
   (chain <> [] -> openssl (ee :: chain) = Ok tt /\ forall u, usage = Some u -> u ee = Ok tt)).
Proof. exact trusted_iff. Qed.
Print Assumptions C74_trusted.

(** A chain of one trusted certificate is accepted without looking at its key usage. *)
Theorem C74_key_usage_refuted : ~ (forall ee chain l os allow openssl u,
  certificates_must_be_trusted (ee :: chain) (Some l) os allow openssl (Some u) = Ok tt -> u ee = Ok tt).
Proof.
  intros H. pose proof (H root3 [] [root3] [] false (fun _ => Ok tt) (fun _ => Err EBadKeyUsage) eq_refl). discriminate.
Qed.
Print Assumptions C74_key_usage_refuted.

(** With trustanchors=None nothing is trusted, not even the system store. *)
Theorem C74_system_store_refuted : forall chain os allow openssl usage,
  certificates_must_be_trusted chain None os allow openssl usage <> Ok tt.
Proof. intros [|c l] os allow openssl usage; cbn; discriminate. Qed.
Print Assumptions C74_system_store_refuted.

Theorem C74_crl : forall E iss v certs dir os allow ch,
  build_crl_chain E iss v certs dir os allow = Ok ch ->
  exists signer rest, ch = signer :: rest /\ c_subject signer = iss /\ v signer = Ok tt /\
    (In signer certs \/ (exists l, dir = Some l /\ In signer l) \/ (allow = true /\ In signer os)) /\
    consecutive (signed_by E) ch.
Proof. exact crl_chain_spec. Qed.
Print Assumptions C74_crl.

Example C74_ex :
  certificates_must_be_trusted [ee1; ca2; root3] (Some [root3]) [] false (fun _ => Ok tt) (Some (fun _ => Ok tt)) = Ok tt
  /\ certificates_must_be_trusted [ee1; ca2] (Some [root3]) [] false (fun _ => Ok tt) None = Err ESignerNotTrusted
  /\ certificates_are_trustanchors [root3; root3] (Some [ca2]) [root3] true = Ok tt
  /\ build_crl_chain E0 [12%Z] (fun _ => Ok tt) [ca2] (Some [root3]) [] false = Ok [ca2; root3].
Proof. repeat split; reflexivity. Qed.
