(** Recipient infos and the encrypted key of a proof of possession: C165, C166. *)
From Coq Require Import String.
From Verif Require Import Prelude PreludeFacts PyStr RcpModel RcpSpec RcpProofs.
Open Scope string_scope.
Open Scope Z_scope.
Open Scope list_scope.

(** ** A library for the examples; not a model of any code in /repo: wrapping writes the key in clear *)

Definition toy : lib :=
  {| b_ktri := fun _ c _ _ _ _ => Ok c; b_kari := fun _ _ c _ _ _ _ => Ok c; b_kem := fun _ c _ _ _ _ => Ok c; b_pw := fun _ c _ _ => Ok c;
     b_content := fun k d => Ok (k ++ 255 :: d);
     b_load := fun c => Ok (match c with 1 :: _ => PRsa c | 2 :: _ => PEcdh c | 3 :: _ => PKem c | _ => POther c end); b_rid := fun c => Ok (Ski c) |}.
Definition toy_unwrap (r : rinfo) : option bytes := match r with RKtri b | RKari b | RKek b | RPwri b | ROri _ b => Some b end.
Definition toy_dec (k c : bytes) : option bytes :=
  if bytes_eqb (firstn (List.length k + 1) c) (k ++ [255]) then Some (skipn (List.length k + 1) c) else None.
Lemma toy_faithful : faithful toy toy_unwrap.
Proof. repeat split; cbn; congruence. Qed.
Lemma toy_correct : correct toy toy_dec.
Proof.
  intros k d c H. injection H as <-. unfold toy_dec.
  assert (E : k ++ 255 :: d = (k ++ [255]) ++ d) by now rewrite <- app_assoc. rewrite E.
  assert (N : (List.length k + 1)%nat = List.length (k ++ [255])) by now rewrite app_length. rewrite N, firstn_app, skipn_app, firstn_all, skipn_all, Nat.sub_diag.
  cbn [firstn skipn app]. rewrite app_nil_r. now rewrite (proj2 (ChamProofs.bytes_eqb_iff _ _) eq_refl).
Qed.
Definition ask (k : option pub) (priv pw cek : option bytes) : args :=
  {| a_key := k; a_priv := priv; a_cert := None; a_pw := pw; a_cek := cek; a_ias := None; a_rid := None; a_oaep := true; a_salt := None; a_kdf := "pbkdf2"; a_orig := None |}.
Definition pop (ca : bytes) (o : option robj) (cek : option bytes) : pargs :=
  {| q_data := [5]; q_rid := None; q_ca := Some ca; q_recip := o; q_agree := false; q_version := None; q_cek := cek; q_priv := Some [8]; q_orig := None; q_cmp := Some [4] |}.

(** ** C165: recipient infos *)

(** The kind of the recipient info is the one for the key; without such a key a password is needed. *)
Theorem C165_kind : forall L rnd a r, prepare_recip_info L rnd a = Ok r -> kind_for (a_key a) (a_priv a) (a_pw a) r.
Proof. exact recip_kind. Qed.
Print Assumptions C165_kind.
(** The recipient takes out of it the key that was given, even an empty one, or else the random one. *)
Theorem C165_unwraps :
  forall L u rnd a r, faithful L u -> prepare_recip_info L rnd a = Ok r ->
  (forall k, a_cek a = Some k -> u r = Some k) /\ (a_cek a = None -> u r = Some rnd).
Proof. intros L u rnd a r F H. pose proof (recip_unwraps L u rnd a r F H) as U. unfold the_cek in U. split; [intros k E | intros E]; now rewrite E in U. Qed.
Print Assumptions C165_unwraps.
(** What it is made from. *)
Theorem C165_made :
  forall L rnd a r cek, cek = match a_cek a with Some k => k | None => rnd end ->
  (prepare_recip_info L rnd a = Ok r <->
   (exists k b, a_key a = Some (PRsa k) /\ b_ktri L k cek (a_cert a) (a_ias a) (a_rid a) (a_oaep a) = Ok b /\ r = RKtri b) \/
   (exists k p b, a_key a = Some (PEcdh k) /\ a_priv a = Some p /\ b_kari L k p cek (a_cert a) (a_ias a) (a_rid a) (a_orig a) = Ok b /\ r = RKari b) \/
   (exists k b, a_key a = Some (PKem k) /\ b_kem L k cek (a_cert a) (a_ias a) (a_rid a) (a_kdf a) = Ok b /\ r = ROri "id_ori_kem" b) \/
   (exists w b, (a_key a = None \/ exists k, a_key a = Some (POther k)) /\ a_pw a = Some w /\ b_pw L w cek (a_salt a) (a_kdf a) = Ok b /\ r = RPwri b)).
Proof.
  intros L rnd a r cek ->. split; [exact (recip_sound L rnd a r)|]. destruct (recip_complete L rnd a) as (A & B & C0 & D).
  intros [(k & b & K & W & ->)|[(k & p & b & K & P & W & ->)|[(k & b & K & W & ->)|(w & b & K & P & W & ->)]]]; eauto.
Qed.
Print Assumptions C165_made.
(** Refused: no key and no password, an unsupported key and no password, a key agreement without a private key. *)
Theorem C165_refused :
  forall L rnd a,
  (a_key a = None /\ a_pw a = None) \/ (exists k, a_key a = Some (POther k) /\ a_pw a = None) \/ (exists k, a_key a = Some (PEcdh k) /\ a_priv a = None) ->
  prepare_recip_info L rnd a = Err EValueError.
Proof. exact recip_refused. Qed.
Print Assumptions C165_refused.
(** Refuted: that a call with a key of an unsupported type is refused; with a password the key is not used at all. *)
Theorem C165_unsupported_refuted :
  forall L rnd k k' w cek, prepare_recip_info L rnd (ask (Some (POther k)) None (Some w) cek) = prepare_recip_info L rnd (ask (Some (POther k')) None (Some w) cek) /\
  (prepare_recip_info toy rnd (ask (Some (POther k)) None (Some w) (Some [7])) = Ok (RPwri [7])).
Proof. intros. split; reflexivity. Qed.
Print Assumptions C165_unsupported_refuted.
(** Refuted: that a password that is given protects the key; with a supported key it has no effect. *)
Theorem C165_password_refuted :
  forall L rnd a w, (exists k, a_key a = Some (PRsa k) \/ a_key a = Some (PKem k) \/ a_key a = Some (PEcdh k)) ->
  prepare_recip_info L rnd {| a_key := a_key a; a_priv := a_priv a; a_cert := a_cert a; a_pw := w; a_cek := a_cek a; a_ias := a_ias a; a_rid := a_rid a;
                              a_oaep := a_oaep a; a_salt := a_salt a; a_kdf := a_kdf a; a_orig := a_orig a |} = prepare_recip_info L rnd a.
Proof. exact password_ignored. Qed.
Print Assumptions C165_password_refuted.
Example C165_case :
  faithful toy toy_unwrap
  /\ prepare_recip_info toy [9] (ask (Some (PRsa [1])) None (Some [6]) None) = Ok (RKtri [9])
  /\ prepare_recip_info toy [9] (ask (Some (PEcdh [1])) (Some [2]) None (Some [])) = Ok (RKari [])
  /\ prepare_recip_info toy [9] (ask (Some (PKem [1])) None None (Some [7])) = Ok (ROri "id_ori_kem" [7])
  /\ prepare_recip_info toy [9] (ask None None (Some [6]) (Some [7])) = Ok (RPwri [7])
  /\ prepare_recip_info toy [9] (ask (Some (PEcdh [1])) None (Some [6]) None) = Err EValueError.
Proof. split; [exact toy_faithful|]. repeat split; reflexivity. Qed.
Print Assumptions C165_case.

(** What parse_recip_info makes of a structure: the same field is set that the structure belongs to. *)
Theorem C165_parse :
  forall b t r, parse_recip_info (OKtri b) = Ok (RKtri b) /\ parse_recip_info (OKari b) = Ok (RKari b) /\ parse_recip_info (OPwri b) = Ok (RPwri b) /\
  parse_recip_info (OKem b) = Ok (ROri "id_ori_kem" b) /\ parse_recip_info (OOther t b) = Ok (ROri t b) /\ parse_recip_info (ORecip r) = Ok r /\
  parse_recip_info OUnknown = Err EValueError.
Proof. intros. repeat split. Qed.
Print Assumptions C165_parse.

(** ** C166: the encrypted key of a proof of possession *)

(** Without a recipient info of the caller, the CA opens the content. *)
Theorem C166_opens :
  forall L u dec rnd q p, faithful L u -> correct L dec -> q_recip q = None -> enc_key_for_popo L rnd q = Ok p ->
  v_infos (p_env p) <> [] /\ opens u dec (p_env p) (q_data q).
Proof.
  intros L u dec rnd q p F C0 N H. split; [|eapply popo_opens; eauto]. apply popo_inv in H. destruct H as (r & c & _ & _ & _ & I0 & _). rewrite I0. discriminate.
Qed.
Print Assumptions C166_opens.
(** The key of the content is the one of the caller; a missing or empty one is replaced by the random one. *)
Theorem C166_key :
  forall L rnd q p, enc_key_for_popo L rnd q = Ok p ->
  (forall k, q_cek q = Some k -> k <> [] -> b_content L k (q_data q) = Ok (v_content (p_env p))) /\
  (q_cek q = None \/ q_cek q = Some [] -> b_content L rnd (q_data q) = Ok (v_content (p_env p))).
Proof.
  intros L rnd q p H. apply popo_inv in H. destruct H as (r & c & _ & E & _ & _ & V & _). rewrite V. unfold popo_cek in E. split.
  - intros k K N. rewrite K in E. destruct k; [congruence | exact E].
  - intros [K|K]; now rewrite K in E.
Qed.
Print Assumptions C166_key.
(** The field that is set. *)
Theorem C166_option :
  forall L rnd q p, enc_key_for_popo L rnd q = Ok p -> p_option p = (if q_agree q then "keyAgreement" else "keyEncipherment").
Proof. intros L rnd q p H. apply popo_inv in H. destruct H as (r & c & _ & _ & O0 & _). exact O0. Qed.
Print Assumptions C166_option.
(** Who is named: the certificate of the CA for a KEM key, the CMP protection certificate otherwise; for a key agreement
    it is also the originator. *)
Theorem C166_rid :
  forall L rnd q p ca cmp cek, cek = match q_cek q with Some (b :: k) => b :: k | _ => rnd end ->
  q_recip q = None -> q_ca q = Some ca -> q_rid q = None -> q_cmp q = Some cmp -> enc_key_for_popo L rnd q = Ok p ->
  (forall k, b_load L ca = Ok (PKem k) -> exists i b, b_rid L ca = Ok i /\ b_kem L k cek (Some ca) None (Some i) "hkdf" = Ok b /\ v_infos (p_env p) = [ROri "id_ori_kem" b]) /\
  (forall k, b_load L ca = Ok (PRsa k) -> exists i b, b_rid L cmp = Ok i /\ b_ktri L k cek (Some ca) None (Some i) true = Ok b /\ v_infos (p_env p) = [RKtri b]) /\
  (forall k, b_load L ca = Ok (PEcdh k) -> q_orig q = None ->
   exists i b s, b_rid L cmp = Ok i /\ q_priv q = Some s /\ b_kari L k s cek (Some ca) None (Some i) (Some i) = Ok b /\ v_infos (p_env p) = [RKari b]).
Proof.
  intros L rnd q p ca cmp cek Ec N A R M H. assert (E : cek = popo_cek rnd q) by (rewrite Ec; unfold popo_cek; destruct (q_cek q) as [[|? ?]|]; reflexivity). rewrite E.
  split; [|split]; intros k K; [eapply popo_rid_kem | eapply popo_rid_rsa | intros G; eapply popo_rid_ecdh]; eauto.
Qed.
Print Assumptions C166_rid.
(** Identifiers of the caller are used as they are. *)
Theorem C166_own_rid :
  forall L rnd q p ca k i cek, cek = match q_cek q with Some (b :: k) => b :: k | _ => rnd end ->
  q_recip q = None -> q_ca q = Some ca -> q_rid q = Some i -> b_load L ca = Ok (PEcdh k) -> enc_key_for_popo L rnd q = Ok p ->
  exists b s, q_priv q = Some s /\ v_infos (p_env p) = [RKari b] /\ b_kari L k s cek (Some ca) None (Some i) (Some (match q_orig q with Some o => o | None => i end)) = Ok b.
Proof.
  intros L rnd q p ca k i cek Ec N A R K H. assert (E : cek = popo_cek rnd q) by (rewrite Ec; unfold popo_cek; destruct (q_cek q) as [[|? ?]|]; reflexivity). rewrite E.
  eapply popo_own_rid; eauto.
Qed.
Print Assumptions C166_own_rid.
Example C166_case :
  correct toy toy_dec
  /\ enc_key_for_popo toy [9] (pop [3] None None) = Ok {| p_option := "keyEncipherment"; p_env := {| v_version := 0; v_infos := [ROri "id_ori_kem" [9]]; v_content := [9; 255; 5] |} |}
  /\ enc_key_for_popo toy [9] (pop [2] None (Some [7])) = Ok {| p_option := "keyEncipherment"; p_env := {| v_version := 2; v_infos := [RKari [7]]; v_content := [7; 255; 5] |} |}
  /\ enc_key_for_popo toy [9] (pop [1] None (Some [])) = Ok {| p_option := "keyEncipherment"; p_env := {| v_version := 2; v_infos := [RKtri [9]]; v_content := [9; 255; 5] |} |}
  /\ enc_key_for_popo toy [9] (pop [0] None None) = Err EValueError.
Proof. split; [exact toy_correct|]. repeat split; reflexivity. Qed.
Print Assumptions C166_case.

(** With a recipient info of the caller the CA opens the content if the info has the key of the content. *)
Theorem C166_given_partial :
  forall L u dec rnd q p o r k, correct L dec -> q_recip q = Some o -> parse_recip_info o = Ok r -> enc_key_for_popo L rnd q = Ok p ->
  q_cek q = Some k -> k <> [] -> u r = Some k -> opens u dec (p_env p) (q_data q).
Proof.
  intros L u dec rnd q p o r k C0 N P H K Nk U. destruct (popo_given L u dec rnd q p o r C0 N P H) as (A & _). apply A. unfold popo_cek. rewrite K. destruct k; [congruence | exact U].
Qed.
Print Assumptions C166_given_partial.
(** Refuted: that the CA always opens it.  A recipient info without its key makes a new random key for the content. *)
Theorem C166_given_refuted :
  exists L u dec, faithful L u /\ correct L dec /\
  forall rnd k, rnd <> [] -> List.length rnd = List.length k -> rnd <> k ->
  exists p, enc_key_for_popo L rnd (pop [1] (Some (OKtri k)) None) = Ok p /\ u (RKtri k) = Some k /\ ~ opens u dec (p_env p) [5].
Proof.
  exists toy, toy_unwrap, toy_dec. split; [exact toy_faithful|]. split; [exact toy_correct|]. intros rnd k N Len D. eexists. split; [reflexivity|]. split; [reflexivity|].
  intros Op. destruct (Op (RKtri k) (or_introl eq_refl)) as (k' & U & E). injection U as <-. cbn [p_env v_content] in E. unfold toy_dec in E.
  destruct (bytes_eqb _ _) eqn:B in E; [|discriminate]. apply ChamProofs.bytes_eqb_iff in B.
  assert (X : firstn (List.length k + 1) ((rnd ++ [255]) ++ [5]) = k ++ [255]) by (rewrite <- app_assoc; exact B). clear B. rename X into B.
  assert (Nn : (List.length k + 1)%nat = List.length (rnd ++ [255])) by (rewrite app_length; cbn [List.length]; now rewrite Len).
  rewrite Nn, firstn_app, firstn_all, Nat.sub_diag in B. cbn [firstn] in B. rewrite app_nil_r in B. apply app_inj_tail in B. now destruct B.
Qed.
Print Assumptions C166_given_refuted.
(** Refuted: that the version is the one of RFC 5652; it is wrong exactly for pwri and ori, so for every KEM key. *)
Theorem C166_version_refuted :
  forall L rnd q p r, enc_key_for_popo L rnd q = Ok p -> q_version q = None -> v_infos (p_env p) = [r] ->
  (rfc_version r (v_version (p_env p)) <-> match r with RPwri _ | ROri _ _ => False | _ => True end).
Proof. exact popo_version. Qed.
Print Assumptions C166_version_refuted.
(** The version: that of the caller, else 0 for pwri and ori and 2 for all others. *)
Theorem C166_version :
  forall L rnd q p r, enc_key_for_popo L rnd q = Ok p -> v_infos (p_env p) = [r] ->
  v_version (p_env p) = match q_version q, r with Some v, _ => v | None, (RPwri _ | ROri _ _) => 0 | None, _ => 2 end.
Proof.
  intros L rnd q p r H I0. apply popo_inv in H. destruct H as (r' & c & _ & _ & _ & I1 & _ & W). rewrite I0 in I1. injection I1 as <-. rewrite W. destruct (q_version q); [reflexivity|]. now destruct r.
Qed.
Print Assumptions C166_version.
(** Accepted iff there is a recipient info and the content can be encrypted; the infos of the caller are kept. *)
Theorem C166_given_kept :
  forall L rnd q o p, q_recip q = Some o -> enc_key_for_popo L rnd q = Ok p -> exists r, parse_recip_info o = Ok r /\ v_infos (p_env p) = [r].
Proof. intros L rnd q o p N H. apply popo_inv in H. destruct H as (r & c & R & _ & _ & I0 & _). unfold recip_for_popo in R. rewrite N in R. eauto. Qed.
Print Assumptions C166_given_kept.
Theorem C166_no_certificate :
  forall L rnd q, q_recip q = None -> q_ca q = None -> enc_key_for_popo L rnd q = Err EValueError.
Proof. intros L rnd q N A. unfold enc_key_for_popo, recip_for_popo. now rewrite N, A. Qed.
Print Assumptions C166_no_certificate.
