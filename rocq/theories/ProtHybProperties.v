(** C98 to C100: hybrid protection and original messages. *)
From Coq Require Import String Ascii Lia.
From Verif Require Import Prelude PreludeFacts PyStr CompLoadModel HdrModel ProtTab ProtModel ProtSpec.
From Verif Require Import ProtToy ProtProperties ProtMatchSpec ProtHybModel ProtHybSpec ProtHybProofs ProtHybRound ProtHybMore.
Open Scope string_scope.
Open Scope Z_scope.
Local Notation length := List.length.

(** ** The libraries of the examples *)
Definition comp_kind : kkind := KComp (Ok (comp "composite-sig-ml-dsa-44-rsa2048")) (Ok (comp "composite-sig-ml-dsa-44-rsa2048-pss")).
Definition pq_kind : kkind := KPq "ml-dsa-44".
(** A certificate with subject key identifier [1; i] has the ML-DSA-44 key [i] as its alternative key. *)
Definition toy_hyb : hyb := {|
  y_combine a b := match k_kind a, k_kind b with KPq _, KRsa => Ok (mk_key comp_kind (100 * k_id a + k_id b)) | _, _ => Err EInvalidKeyCombination end;
  y_class c := match c_pub c with
               | Ok k => match k_kind k with KComp _ _ => CComp | KPq _ => CPq | KRsa | KEc => CTrad | _ => COther end
               | Err _ => COther
               end;
  y_alt c _ := match c_ski c with Some [1; i] => Ok (Some (mk_key pq_kind i)) | _ => Ok None end;
  y_chain c d := Ok (c :: d);
  y_enc_spki k := match k_kind k with KPq n => if String.eqb n "ml-dsa-44" then Ok [1; k_id k] else Err EValueError | KRsa => Ok [2; k_id k] | _ => Err EValueError end;
  y_dec_spki b := match b with [1; i] => Some (Ok (mk_key pq_kind i), []) | [2; i] => Some (Ok (mk_key KRsa i), []) | _ => None end;
  y_enc_bits b := (0 :: b)%list;
  y_dec_bits b := match b with 0 :: r => Some (r, []) | _ => None end;
  y_stf v _ := manipulate_first_byte v
|}.
Lemma toy_hyb_ok : hyb_ok toy_hyb.
Proof.
  constructor; [reflexivity|]. intros [kk i] b. cbn. destruct kk; try discriminate; intro H.
  - inversion H; reflexivity.
  - match type of H with context[String.eqb ?n _] => destruct (String.eqb n "ml-dsa-44") eqn:E end; [|discriminate H]. apply String.eqb_eq in E. subst. inversion H; reflexivity.
Qed.
Lemma toy_keys : forall m public, (forall k, public = Some k -> wf_kind (k_kind k)) ->
  (forall c k, In c (m_certs m) -> c_pub c = Ok k -> wf_kind (k_kind k)) -> keys_wf toy_hyb m public.
Proof.
  intros m public P C. constructor; auto; cbn.
  - intros c _ k H. destruct (c_ski c) as [[|[|[]|] [|i []]]|]; try discriminate H; inversion H; subst. now left.
  - intros b k r H.
    repeat match type of H with match ?x with _ => _ end = _ => destruct x; try discriminate H end; inversion H; subst; cbn; tauto.
  - intros a b k H. destruct (k_kind a), (k_kind b); try discriminate H. inversion H; subst. exact I.
Qed.
Definition rsa_key : key := mk_key KRsa 3.
Definition pq_key : key := mk_key pq_kind 4.
Definition comp_key : key := mk_key comp_kind 403.
(** A certificate of [k] whose alternative key is the ML-DSA-44 key [i]. *)
Definition hyb_cert (k : key) (i : Z) : cert :=
  {| c_der := [k_id k]; c_pub := Ok k; c_sig := "sha256WithRSAEncryption"; c_ski := Some [1; i]; c_subject := [2]; c_name := [1] |}.
Definition yargs (c : option cert) (dir : list cert) (bad incl : bool) : yopts :=
  {| yo_cert := c; yo_dir := dir; yo_exclude := false; yo_patch := true; yo_hash := None; yo_pss := Some false; yo_bad := bad;
     yo_include := incl |}.
Definition other_cert : cert := mk_cert (mk_key KRsa 8).
Definition protected (k : key) (prot : string) (alt : option key) (o : yopts) (m : msg) : result msg :=
  protect_hybrid toy toy_hyb toy_rnd toy_rnd other_rnd m (Some k) prot alt o.
Definition outcome (m : result msg) (public : option key) (must : bool) : result unit :=
  let! m' := m in fst (verify_hybrid toy toy_hyb (transport toy m') public must).
Definition good : yopts := yargs (Some (hyb_cert rsa_key 4)) [other_cert] false true.

(** ** C98 *)
(** A message is accepted exactly when it names an algorithm, has a protection value that verifies with the verifier's key
    over header and body, and, when the algorithm is not composite, meets the condition on the alternative signature. *)
Theorem C98_accepts : forall L Y m public must, keys_wf Y m public ->
  (fst (verify_hybrid L Y m public must) = Ok tt <->
   exists a v data k, alg_is m a /\ m_prot m = Some v /\ part_of L m data /\ verifier Y m public a k /\ sig_valid L a k data v /\
     (~ is_composite a -> alt_condition L Y m must)).
Proof. exact hybrid_exact. Qed.
Print Assumptions C98_accepts.
Theorem C98_one_key : forall Y m public a k k', verifier Y m public a k -> verifier Y m public a k' -> k = k'.
Proof. exact verifier_fun. Qed.
Print Assumptions C98_one_key.
(** An accepted message has lost its alternative signatures, and nothing else, when the algorithm is not composite; a
    rejected one may have lost them. *)
Theorem C98_object : forall L Y m public must a, alg_is m a -> fst (verify_hybrid L Y m public must) = Ok tt ->
  (is_composite a -> snd (verify_hybrid L Y m public must) = m) /\
  (~ is_composite a -> snd (verify_hybrid L Y m public must) = without_alt m).
Proof. exact accepted_object. Qed.
Print Assumptions C98_object.
Theorem C98_object_any : forall L Y m public must,
  snd (verify_hybrid L Y m public must) = m \/ snd (verify_hybrid L Y m public must) = without_alt m.
Proof. exact hybrid_object. Qed.
Print Assumptions C98_object_any.
(** Verifying does not leave the message as it was: what was verified through an alternative signature never verifies again. *)
Theorem C98_twice_refuted : forall L Y m public must public' must', keys_wf Y m public -> keys_wf Y (without_alt m) public' ->
  fst (verify_hybrid L Y m public must) = Ok tt -> snd (verify_hybrid L Y m public must) <> m ->
  fst (verify_hybrid L Y (snd (verify_hybrid L Y m public must)) public' must') <> Ok tt.
Proof. exact verified_twice. Qed.
Print Assumptions C98_twice_refuted.
(** The given key counts only for composite algorithms: any two keys give the same outcome, and a message without
    certificates is never accepted. *)
Theorem C98_key_refuted : forall L Y m a p q must, alg_is m a -> ~ is_composite a ->
  (m_certs m <> [] -> verify_hybrid L Y m p must = verify_hybrid L Y m q must) /\
  (m_certs m = [] -> fst (verify_hybrid L Y m p must) <> Ok tt).
Proof. intros L Y m a p q must A C. split; intro H; [now apply key_unused with a|now apply key_alone with a]. Qed.
Print Assumptions C98_key_refuted.
(** must_be_catalyst_signed does not count for composite algorithms. *)
Theorem C98_must_refuted : forall L Y m a p, alg_is m a -> is_composite a -> verify_hybrid L Y m p true = verify_hybrid L Y m p false.
Proof. exact must_unused. Qed.
Print Assumptions C98_must_refuted.
Definition verified_once (m : result msg) : result (unit * msg) :=
  let! m' := m in let! _ := fst (verify_hybrid toy toy_hyb m' None true) in Ok (tt, snd (verify_hybrid toy toy_hyb m' None true)).
Example C98_ex :
  (forall public, (forall k, public = Some k -> wf_kind (k_kind k)) ->
     keys_wf toy_hyb (set_certs msg0 [hyb_cert rsa_key 4; other_cert]) public) /\
  outcome (protected rsa_key "catalyst" (Some pq_key) good msg0) None true = Ok tt /\
  outcome (protected rsa_key "catalyst" (Some pq_key) good msg0) (Some (mk_key KRsa 77)) true = Ok tt /\
  outcome (protected rsa_key "catalyst" (Some pq_key) (yargs (Some (hyb_cert rsa_key 4)) [other_cert] true true) msg0) None false = Err EInvalidAltSignature /\
  outcome (protected rsa_key "signature" None good msg0) None false = Ok tt /\
  outcome (protected rsa_key "signature" None good msg0) None true = Err EValueError /\
  outcome (protected rsa_key "composite" (Some pq_key) good msg0) None false = Ok tt /\
  outcome (protected rsa_key "composite" (Some pq_key) good msg0) (Some comp_key) true = Ok tt /\
  outcome (protected rsa_key "composite" (Some pq_key) good msg0) (Some (mk_key comp_kind 9)) false = Err EInvalidSignature /\
  (let! q := verified_once (protected rsa_key "catalyst" (Some pq_key) good msg0) in
   fst (verify_hybrid toy toy_hyb (snd q) None true)) = Err EInvalidSignature.
Proof.
  split.
  - intros public P. apply toy_keys; [exact P|]. intros c k [<-|[<-|[]]] E; inversion E; subst; exact I.
  - do 8 (split; [vm_compute; reflexivity|]). vm_compute. reflexivity.
Qed.
Print Assumptions C98_ex.

(** ** C99 *)
(** A message with a signature or a composite signature is accepted by a verifier that uses the same key exactly when the
    value verifies, and no alternative signature is asked for unless the key is composite; the same after it travels. *)
Theorem C99_signature : forall L Y r1 r2 r3 m k prot alt o m' K public must, lib_ok L ->
  protect_hybrid L Y r1 r2 r3 m (Some k) prot alt o = Ok m' -> used_key Y k prot alt K -> wf_kind (k_kind K) ->
  signing_key (k_kind K) = true -> keys_wf Y m' public -> no_hybrid (h_info (m_header m)) ->
  exists a s v v2 data, alg_is m' a /\ (is_composite a <-> is_comp (k_kind K) = true) /\ sig_scheme L a (k_kind K) s /\
    part_of L m' data /\ l_sign L r2 s K data = Ok v /\
    (if yo_bad o then manipulate_bytes_based_on_key Y v K else Ok v) = Ok v2 /\
    (verifier Y m' public a K ->
       (fst (verify_hybrid L Y m' public must) = Ok tt <-> l_verify L s K v2 data = Ok tt /\ (is_comp (k_kind K) = true \/ must = false)) /\
       (fst (verify_hybrid L Y (transport L m') public must) = Ok tt <-> l_verify L s K v2 data = Ok tt /\ (is_comp (k_kind K) = true \/ must = false))).
Proof. exact signature_decides. Qed.
Print Assumptions C99_signature.
Theorem C99_signature_accepted : forall L Y r1 r2 r3 m k prot alt o m' K public must, lib_ok L ->
  protect_hybrid L Y r1 r2 r3 m (Some k) prot alt o = Ok m' -> used_key Y k prot alt K -> wf_kind (k_kind K) ->
  signing_key (k_kind K) = true -> yo_bad o = false -> keys_wf Y m' public -> no_hybrid (h_info (m_header m)) ->
  exists a, alg_is m' a /\ (is_composite a <-> is_comp (k_kind K) = true) /\
    (verifier Y m' public a K ->
       (fst (verify_hybrid L Y m' public must) = Ok tt <-> (is_comp (k_kind K) = true \/ must = false)) /\
       (fst (verify_hybrid L Y (transport L m') public must) = Ok tt <-> (is_comp (k_kind K) = true \/ must = false))).
Proof. exact signature_roundtrip. Qed.
Print Assumptions C99_signature_accepted.
(** With bad_message_check the value is another one, of the same length, for all keys but stateful ones. *)
Theorem C99_bad : forall Y v k v2, manipulate_bytes_based_on_key Y v k = Ok v2 -> (forall s, k_kind k <> KStf s) ->
  v2 <> v /\ length v2 = length v /\ skipn 1 v2 = skipn 1 v.
Proof.
  intros Y v k v2 H N. unfold manipulate_bytes_based_on_key in H. assert (M : manipulate_first_byte v = Ok v2).
  { destruct (k_kind k) eqn:K; try exact H; exfalso; eapply N; reflexivity. }
  destruct v as [|b r]; [discriminate|]. cbn [manipulate_first_byte] in M. assert (E : v2 = (if b =? 0 then 1 else 0) :: r) by congruence. subst v2.
  split; [|split; reflexivity]. intro E. assert (E' : (if b =? 0 then 1 else 0) = b) by congruence. destruct (b =? 0) eqn:B; [apply Z.eqb_eq in B|apply Z.eqb_neq in B]; lia.
Qed.
Print Assumptions C99_bad.
Theorem C99_certs : forall L Y r1 r2 r3 m k prot alt o m', protect_hybrid L Y r1 r2 r3 m (Some k) prot alt o = Ok m' -> sent_certs Y m o (m_certs m').
Proof. exact protect_certs. Qed.
Print Assumptions C99_certs.
(** A message with an alternative signature, from a single primary key that its first certificate has, is accepted exactly
    when the alternative signature verifies over the message without it. *)
Theorem C99_catalyst : forall L Y r1 r2 r3 m k x o m' c others public must, lib_ok L -> hyb_ok Y ->
  protect_hybrid L Y r1 r2 r3 m (Some k) "catalyst" (Some x) o = Ok m' -> wf_kind (k_kind k) -> wf_kind (k_kind x) ->
  single_key (k_kind k) = true -> signing_key (k_kind x) = true -> keys_wf Y m' public -> no_hybrid (h_info (m_header m)) ->
  m_certs m' = (c :: others)%list -> c_pub c = Ok k -> (yo_include o = true \/ y_alt Y c others = Ok (Some x)) ->
  exists s v v2 data, l_sign L r2 s x data = Ok v /\ (if yo_bad o then manipulate_first_byte v else Ok v) = Ok v2 /\
    part_of L (without_alt m') data /\
    (fst (verify_hybrid L Y m' public must) = Ok tt <-> l_verify L s x v2 data = Ok tt) /\
    (fst (verify_hybrid L Y (transport L m') public must) = Ok tt <-> l_verify L s x v2 data = Ok tt).
Proof. exact catalyst_roundtrip. Qed.
Print Assumptions C99_catalyst.
(** So one made without bad_message_check is accepted, and this only rests on the key the message itself carries. *)
Theorem C99_catalyst_accepted : forall L Y r1 r2 r3 m k x o m' c others public must, lib_ok L -> hyb_ok Y ->
  protect_hybrid L Y r1 r2 r3 m (Some k) "catalyst" (Some x) o = Ok m' -> wf_kind (k_kind k) -> wf_kind (k_kind x) ->
  single_key (k_kind k) = true -> signing_key (k_kind x) = true -> keys_wf Y m' public -> no_hybrid (h_info (m_header m)) ->
  m_certs m' = (c :: others)%list -> c_pub c = Ok k -> (yo_include o = true \/ y_alt Y c others = Ok (Some x)) -> yo_bad o = false ->
  fst (verify_hybrid L Y m' public must) = Ok tt /\ fst (verify_hybrid L Y (transport L m') public must) = Ok tt.
Proof. exact catalyst_accepted. Qed.
Print Assumptions C99_catalyst_accepted.
(** A certificate is sent only with a directory of certificates. *)
Theorem C99_certificate_refuted : forall L Y r1 r2 r3 m k prot alt o m', protect_hybrid L Y r1 r2 r3 m (Some k) prot alt o = Ok m' ->
  yo_dir o = [] -> m_certs m' = m_certs m.
Proof. exact cert_not_sent. Qed.
Print Assumptions C99_certificate_refuted.
(** The certificate's own alternative key does not count when the message carries another one. *)
Theorem C99_self_asserted_refuted : exists m' c others, protected rsa_key "catalyst" (Some (mk_key pq_kind 66)) good msg0 = Ok m' /\
  m_certs m' = (c :: others)%list /\ y_alt toy_hyb c others = Ok (Some pq_key) /\
  fst (verify_hybrid toy toy_hyb (transport toy m') None true) = Ok tt.
Proof. eexists. eexists. eexists. do 3 (split; [vm_compute; reflexivity|]). vm_compute. reflexivity. Qed.
Print Assumptions C99_self_asserted_refuted.
(** bad_message_check spoils the alternative signature only: the message protection verifies, whatever the option. *)
Theorem C99_bad_refuted : forall L Y r1 r2 r3 r4 m k x o m' w, lib_ok L ->
  protect_hybrid L Y r1 r2 r3 m (Some k) "catalyst" (Some x) o = Ok m' -> wf_kind (k_kind k) -> single_key (k_kind k) = true ->
  v_public w = Some k -> v_lw w = false ->
  verify_pkimessage_protection L r4 m' w = Ok tt /\ verify_pkimessage_protection L r4 (transport L m') w = Ok tt.
Proof. exact catalyst_primary. Qed.
Print Assumptions C99_bad_refuted.
(** With a composite primary key the alternative signature is not looked at. *)
Theorem C99_composite_refuted : forall L Y r1 r2 r3 m k x o m' public must, lib_ok L ->
  protect_hybrid L Y r1 r2 r3 m (Some k) "catalyst" (Some x) o = Ok m' -> wf_kind (k_kind k) -> is_comp (k_kind k) = true ->
  public = Some k -> keys_wf Y m' public ->
  fst (verify_hybrid L Y m' public must) = Ok tt /\ fst (verify_hybrid L Y (transport L m') public must) = Ok tt.
Proof. exact catalyst_composite. Qed.
Print Assumptions C99_composite_refuted.
(** A message that has an alternative signature already verifies after protecting it again only if the new one is also one
    for other data. *)
Theorem C99_again_refuted : forall L Y r1 r2 r3 m k x o m' c others public must, lib_ok L -> hyb_ok Y ->
  protect_hybrid L Y r1 r2 r3 m (Some k) "catalyst" (Some x) o = Ok m' -> wf_kind (k_kind k) -> wf_kind (k_kind x) ->
  single_key (k_kind k) = true -> signing_key (k_kind x) = true -> keys_wf Y m' public -> wf_header L (m_header m') = true ->
  (exists i, In i (h_info (m_header m)) /\ i_type i = alt_sig) -> yo_bad o = false -> yo_include o = true ->
  m_certs m' = (c :: others)%list -> fst (verify_hybrid L Y m' public must) = Ok tt ->
  exists s v data data', l_sign L r2 s x data = Ok v /\ data' <> data /\ l_verify L s x v data' = Ok tt.
Proof. exact catalyst_again. Qed.
Print Assumptions C99_again_refuted.
Definition twice (k x : key) (o : yopts) : result msg :=
  let! m := protected k "catalyst" (Some x) o msg0 in protected k "catalyst" (Some x) o m.
Example C99_ex :
  lib_ok toy /\ hyb_ok toy_hyb /\ used_key toy_hyb rsa_key "composite" (Some pq_key) comp_key /\
  used_key toy_hyb rsa_key "signature" None rsa_key /\ no_hybrid (h_info (m_header msg0)) /\
  (exists m', protected rsa_key "composite" (Some pq_key) good msg0 = Ok m' /\
     verifier toy_hyb m' None (Alg (comp "composite-sig-ml-dsa-44-rsa2048") PAbsent) comp_key /\ keys_wf toy_hyb m' None) /\
  (let! m := protected rsa_key "catalyst" (Some pq_key) good msg0 in Ok (List.map c_ski (m_certs m))) = Ok [Some [1; 4]; None] /\
  outcome (twice rsa_key pq_key good) None true = Err EInvalidAltSignature /\
  (let! m := twice rsa_key pq_key good in Ok (wf_header toy (m_header m))) = Ok true /\
  outcome (protected rsa_key "catalyst" (Some pq_key) (yargs (Some (hyb_cert rsa_key 4)) [other_cert] false false) msg0) None true = Ok tt /\
  outcome (protected rsa_key "catalyst" (Some pq_key) (yargs (Some (hyb_cert rsa_key 5)) [other_cert] false false) msg0) None true = Err EInvalidAltSignature /\
  outcome (protected rsa_key "signature" None (yargs (Some (hyb_cert rsa_key 4)) [] false true) msg0) (Some rsa_key) false = Err EIndexError /\
  outcome (protected comp_key "catalyst" (Some pq_key) (yargs None [] true true) msg0) (Some comp_key) true = Ok tt.
Proof.
  split; [exact toy_ok|]. split; [exact toy_hyb_ok|]. split; [now apply (UK_pq_second _ _ _ "ml-dsa-44")|]. split; [constructor|].
  split; [split; [|split]; intros i []|]. split.
  - eexists. split; [vm_compute; reflexivity|]. split.
    + apply (VK_hybrid _ _ _ _ (hyb_cert rsa_key 4) [other_cert]).
      * right; now left.
      * intros (k & E & _). discriminate E.
      * reflexivity.
      * apply (HK_pair _ _ _ pq_key rsa_key pq_key rsa_key "ml-dsa-44"); try reflexivity; [left; split; [now exists "ml-dsa-44"|auto]|now left|cbn; tauto].
    + apply toy_keys; [discriminate|]. intros c k [<-|[<-|[]]] E; inversion E; subst; exact I.
  - do 6 (split; [vm_compute; reflexivity|]). vm_compute. reflexivity.
Qed.
Print Assumptions C99_ex.

(** ** C100 *)
(** The original messages of a request are accepted exactly when there is no such entry and none is asked for, or the first
    entry decodes completely to messages that all verify with nothing but the password. *)
Theorem C100_accepts : forall L rnd dec m must pw, validate_orig L rnd dec m must pw = Ok tt <->
  (none_of orig_type (h_info (m_header m)) /\ must = false) \/
  exists i b l, first_entry orig_type (h_info (m_header m)) i /\ (i_val i = PRaw b \/ i_val i = POctets b) /\ dec b = Some (l, []) /\
    Forall (verifies L rnd pw) l.
Proof. exact orig_exact. Qed.
Print Assumptions C100_accepts.
Theorem C100_missing : forall L rnd dec m pw, none_of orig_type (h_info (m_header m)) ->
  validate_orig L rnd dec m true pw = Err EBadRequest /\ validate_orig L rnd dec m false pw = Ok tt.
Proof. exact orig_missing. Qed.
Print Assumptions C100_missing.
(** The first message that fails decides the outcome. *)
Theorem C100_fails : forall L rnd dec m must pw i b l1 x l2 e, first_entry orig_type (h_info (m_header m)) i ->
  (i_val i = PRaw b \/ i_val i = POctets b) -> dec b = Some ((l1 ++ x :: l2)%list, []) -> Forall (verifies L rnd pw) l1 ->
  verify_pkimessage_protection L rnd x {| v_key := None; v_password := pw; v_public := None; v_ss := None; v_lw := false |} = Err e ->
  validate_orig L rnd dec m must pw = Err (failure e).
Proof. exact orig_fails. Qed.
Print Assumptions C100_fails.
Definition with_orig (m : msg) (v : params) : msg := set_header m (add_info (m_header m) {| i_type := orig_type; i_val := v |}).
Definition dec_one (l : list msg) (b : bytes) : option (list msg * bytes) :=
  match b with [7] => Some (l, []) | 7 :: r => Some (l, r) | _ => None end.
Definition pw_msg : result msg := protect_pkimessage toy toy_rnd toy_rnd msg0 "pbmac1" (pw_args "secret" false None).
Definition orig_outcome (m : result msg) (b : bytes) (must : bool) (pw : option sval) : result unit :=
  let! x := m in validate_orig toy other_rnd (dec_one [transport toy x]) (with_orig msg0 (PRaw b)) must pw.
(** Not every failure of an original message is a BadMessageCheck: a missing password or a message without protection raise
    something else. *)
Theorem C100_failures_refuted : exists L rnd dec1 dec2 m pw,
  lib_ok L /\ validate_orig L rnd dec1 m true pw = Err EValueError /\ validate_orig L rnd dec2 m true pw = Err EPyAsn1.
Proof.
  exists toy, other_rnd, (dec_one (match pw_msg with Ok x => [transport toy x] | Err _ => [] end)), (dec_one [msg0]),
    (with_orig msg0 (PRaw [7])), None.
  split; [exact toy_ok|]. split; vm_compute; reflexivity.
Qed.
Print Assumptions C100_failures_refuted.
Example C100_ex :
  orig_outcome pw_msg [7] true (Some (SvStr "secret")) = Ok tt /\
  orig_outcome pw_msg [7] true (Some (SvStr "other")) = Err EBadMessageCheck /\
  orig_outcome pw_msg [7; 7] true (Some (SvStr "secret")) = Err EBadMessageCheck /\
  orig_outcome pw_msg [8] true (Some (SvStr "secret")) = Err EBadAsn1Data /\
  first_entry orig_type (h_info (m_header (with_orig msg0 (PRaw [7])))) {| i_type := orig_type; i_val := PRaw [7] |}.
Proof.
  do 4 (split; [vm_compute; reflexivity|]). exists [], []. split; [reflexivity|]. split; [reflexivity|intros j []].
Qed.
Print Assumptions C100_ex.

(** ** More on C94 *)
(** The numbers hashed in the key derivation of DHBasedMac are the decimal digits, without leading zeros. *)
Theorem C94_dh_counter : forall i, 0 <= i -> decimal i (dec_ascii i).
Proof. exact dec_ascii_decimal. Qed.
Print Assumptions C94_dh_counter.
Example C94_dh_counter_ex : dec_ascii 120 = [49; 50; 48] /\ dec_ascii 0 = [48].
Proof. split; reflexivity. Qed.
Print Assumptions C94_dh_counter_ex.
