(** Proof of possession by challenge and the out-of-band hash: C149 - C153. *)
From Coq Require Import String.
From Verif Require Import Prelude PreludeFacts PyStr ChamToy GenModel GenSpec ChlModel ChlSpec ChlProofs.
Open Scope string_scope.
Open Scope Z_scope.
Open Scope list_scope.
Local Notation length := List.length.

(** ** A library for the examples; not a model of any code in /repo *)

Definition c_rand : codec rand := c_map (fun p => {| r_int := fst p; r_sender := snd p |}) (fun r => (r_int r, r_sender r)) (c_pair c_z c_bytes).
Definition td {A} (c : codec A) : der A := {| enc := en c; dec := de c |}.
Lemma rand_good : faithful (td c_rand).
Proof.
  intros x. unfold reads. cbn [td dec enc]. assert (G : good c_rand) by (apply good_map; [now intros [] | apply good_pair; [apply good_z | apply good_bytes]]).
  pose proof (G x []) as H. now rewrite app_nil_r in H.
Qed.
(** RSA puts its key before the data, ECDH adds the keys, AES adds the first byte of the key. *)
Definition toy : lib := {|
  l_rand := td c_rand;
  l_name := fun s => if String.eqb s "" then Err EValueError else Ok [Z.of_nat (String.length s)];
  l_same := fun b s => Ok (bytes_eqb b [Z.of_nat (String.length s)]);
  l_subject := fun c => 9 :: c;
  l_hash := fun _ b => Ok (rev b); l_sha := fun _ => Ok [1];
  l_rsa_enc := fun p d => Ok (p ++ d);
  l_rsa_dec := fun s e => match e with a :: r => if bytes_eqb s [a] then Ok r else Err EValueError | [] => Err EValueError end;
  l_dh := fun s p => match s, p with SDh _ [a], PDh _ [b] => Ok [a + b] | _, _ => Err EValueError end;
  l_derive := fun b => Ok (5 :: b);
  l_encaps := fun _ => Ok ([7], [8]); l_decaps := fun _ c => match c with Some [_] => Ok [7] | _ => Err EValueError end;
  l_aes := fun k _ d => Ok (map (fun x => x + hd 0 k) d); l_unaes := fun k _ d => Ok (map (fun x => x - hd 0 k) d);
  l_seal := fun k _ id d => Ok {| v_recips := [match k with PRsa _ => Ktri (RSerial [0] id) | PKem _ => Kemri (Some (RSerial [0] id)) | _ => Kari [RSerial [0] id] end]; v_data := d |};
  l_open := fun _ v _ _ => Ok (v_data v);
  l_load := fun c => match c with 1 :: r => Ok (PDh "EC" r) | _ => Ok (PRsa c) end;
  l_null := fun b => bytes_eqb b [0] |}.
Lemma toy_aes : aes_ok toy.
Proof.
  intros k iv d e H. cbn [toy l_aes] in H. injection H as <-. cbn [toy l_unaes]. rewrite map_map. f_equal. rewrite <- (map_id d) at 2. apply map_ext. intros; lia.
Qed.
Definition toy_req (pv : Z) (k : pub) : req := {| q_body := "ir"; q_reqs := [(Ok k, 0)]; q_pvno := pv; q_mac := false; q_tx := Some [4] |}.
Definition toy_msg (pv : Z) (x : chal) (e : list cert) : cmsg :=
  {| m_body := "popdecc"; m_pvno := pv; m_chals := [x]; m_extra := e; m_kem := None; m_tx := Some [4]; m_sn := Some [11]; m_rn := Some [12] |}.
Definition toy_conf : conf := {| f_ec := Some (SDh "EC" [3]); f_x25519 := None; f_x448 := None; f_cert := [1; 3] |}.
Definition data5 : bytes := enc (td c_rand) {| r_int := 5; r_sender := [17] |}.
Definition rsa5 : chal := {| c_owf := None; c_wit := []; c_val := 6 :: data5; c_env := None |}.
Definition env5 : chal := {| c_owf := None; c_wit := []; c_val := []; c_env :=
  Some {| v_recips := [Ktri (RSerial [0] 0)]; v_data := enc (td c_rand) {| r_int := 5; r_sender := [9; 1; 3] |} |} |}.
Lemma toy_rsa m ca kc : opens toy m (PRsa [6]) ca (SRsa [6]) kc.
Proof. intros d e H. injection H as <-. reflexivity. Qed.
Lemma toy_seal m k ca sk kc : unseals toy m k ca sk kc.
Proof.
  intros id d v H. cbn [toy l_seal] in H. injection H as <-. split; [|reflexivity]. eexists _, [0]. split; [reflexivity|]. split; [|reflexivity].
  unfold named_by. destruct k; eauto.
Qed.

(** ** C149: the answer to a challenge is its number *)

(** In version 2 the end entity that holds the private key answers with the number of the challenge, whatever the
    witness; the transaction is kept and the nonces are exchanged. *)
Theorem C149_version_2 :
  forall L q ca n id size sender bad pv a h iv c small rnd noise v x ct z m t s r k i rest sk kc,
  faithful (l_rand L) -> aes_ok L ->
  build_popdecc L q ca n id size sender bad pv a h iv c small rnd noise = Ok (v, x, ct, z) ->
  v = 2 -> carries m 2 x t s r -> q_reqs q = (Ok k, i) :: rest -> opens L m k ca sk kc ->
  forall ri id', process_popdecc L m sk 1 0 id' ri None iv (Some 2) kc = Ok {| a_nums := [z]; a_tx := t; a_rn := s; a_sn := r |}.
Proof. exact round2. Qed.
Print Assumptions C149_version_2.
Example C149_version_2_ex :
  build_popdecc toy (toy_req 2 (PRsa [6])) None (Some 5) None 1 (Some "CN=CMP-Test-Suite") false None (CBytes []) None [] None 1 1 [] = Ok (2, rsa5, None, 5) /\
  carries (toy_msg 2 rsa5 []) 2 rsa5 [4] [11] [12] /\ opens toy (toy_msg 2 rsa5 []) (PRsa [6]) None (SRsa [6]) None /\
  process_popdecc toy (toy_msg 2 rsa5 []) (SRsa [6]) 1 0 7 0 None [] (Some 2) None = Ok {| a_nums := [5]; a_tx := [4]; a_rn := [11]; a_sn := [12] |}.
Proof. repeat split. apply toy_rsa. Qed.
Print Assumptions C149_version_2_ex.
(** The same with a key agreement; the CA's certificate is the second of the extra certificates. *)
Example C149_agreement_ex :
  exists x, build_popdecc toy (toy_req 2 (PDh "EC" [6])) (Some (SDh "EC" [3])) (Some 5) None 1 (Some "CN") false None (CBytes []) None [] None 1 1 [] = Ok (2, x, None, 5) /\
  opens toy (toy_msg 2 x [[8]; [1; 3]]) (PDh "EC" [6]) (Some (SDh "EC" [3])) (SDh "EC" [6]) None /\
  process_popdecc toy (toy_msg 2 x [[8]; [1; 3]]) (SDh "EC" [6]) 1 0 7 0 None [] (Some 2) None = Ok {| a_nums := [5]; a_tx := [4]; a_rn := [11]; a_sn := [12] |}.
Proof.
  eexists. split; [reflexivity|]. split; [|reflexivity]. exists (PDh "EC" [3]). split.
  - exists [8], [[1; 3]]. split; [reflexivity|]. right. exists (PRsa [8]), [1; 3], [], [3]. repeat split. discriminate.
  - intros c ss E H. injection E as <-. exact H.
Qed.
Print Assumptions C149_agreement_ex.

(** In version 3 the number is in an [EnvelopedData]; the identifier is the given one unless it is 0. *)
Theorem C149_version_3 :
  forall L q ca n id size sender bad pv a h iv c small rnd noise v x ct z m t s r k i rest sk kc,
  faithful (l_rand L) ->
  build_popdecc L q ca n id size sender bad pv a h iv c small rnd noise = Ok (v, x, ct, z) ->
  v = 3 -> challenge_bytes a = Ok [] -> carries m 3 x t s r -> q_reqs q = (Ok k, i) :: rest -> unseals L m k ca sk kc ->
  forall iv', process_popdecc L m sk 1 0 (or_z id i) 0 None iv' (Some 3) kc = Ok {| a_nums := [z]; a_tx := t; a_rn := s; a_sn := r |}.
Proof. exact round3. Qed.
Print Assumptions C149_version_3.
Example C149_version_3_ex :
  build_popdecc toy (toy_req 3 (PRsa [6])) None (Some 5) None 1 None false None (CBytes []) None [] (Some [1; 3]) 1 1 [] = Ok (3, env5, None, 5) /\
  unseals toy (toy_msg 3 env5 []) (PRsa [6]) None (SRsa [6]) None /\
  process_popdecc toy (toy_msg 3 env5 []) (SRsa [6]) 1 0 0 0 None [] (Some 3) None = Ok {| a_nums := [5]; a_tx := [4]; a_rn := [11]; a_sn := [12] |}.
Proof. split; [reflexivity|]. split; [apply toy_seal | reflexivity]. Qed.
Print Assumptions C149_version_3_ex.

(** The Mock CA has the answered number open for the transaction of the answer. *)
Theorem C149_mock :
  forall L F s p q num small rnd noise s' v x ct z k i rest m t sn rn sk kc,
  faithful (l_rand L) -> aes_ok L ->
  mock_challenge L F s p q num small rnd noise = Ok (s', (v, x, ct, z)) -> q_reqs q = (Ok k, i) :: rest ->
  carries m v x t sn rn -> q_tx q = Some t ->
  (forall ca, uses F p k ca -> (v = 2 /\ opens L m k ca sk kc) \/ (v = 3 /\ unseals L m k ca sk kc)) ->
  exists a, process_popdecc L m sk 1 0 i 0 None (repeat 65 16) (Some v) kc = Ok a /\ a_nums a = [z] /\ a_tx a = t /\ In (z, t) s'.
Proof. exact mock_answer. Qed.
Print Assumptions C149_mock.
Example C149_mock_ex :
  mock_challenge toy toy_conf [(8, [2])] "keyEncipherment" (toy_req 2 (PRsa [6])) 5 1 1 [] = Ok ([(8, [2]); (5, [4])], (2, rsa5, None, 5)) /\
  carries (toy_msg 2 rsa5 []) 2 rsa5 [4] [11] [12] /\
  (forall ca, uses toy_conf "keyEncipherment" (PRsa [6]) ca -> opens toy (toy_msg 2 rsa5 []) (PRsa [6]) ca (SRsa [6]) None).
Proof. repeat split. intros. apply toy_rsa. Qed.
Print Assumptions C149_mock_ex.

(** Finding: a plain challenge for a KEM key is never answered, whatever the header of the message holds, because the
    ciphertext is not handed to the decapsulation. *)
Theorem C149_kem_refuted :
  forall L m s c size i id ri sender iv ver kc a,
  nth_error (m_chals m) i = Some c -> c_env c = None -> (forall x, l_decaps L s None <> Ok x) ->
  process_popdecc L m (SKem s) size i id ri sender iv ver kc <> Ok a.
Proof. exact kem_unanswered. Qed.
Print Assumptions C149_kem_refuted.
Example C149_kem_refuted_ex :
  (exists x, build_popdecc toy (toy_req 2 (PKem [6])) None (Some 5) None 1 (Some "CN") false None (CBytes []) None [] None 1 1 [] = Ok (2, x, Some [8], 5) /\ c_env x = None) /\
  l_decaps toy [6] (Some [8]) = Ok [7] /\ forall x, l_decaps toy [6] None <> Ok x.
Proof. split; [eexists; split; reflexivity|]. split; [reflexivity | discriminate]. Qed.
Print Assumptions C149_kem_refuted_ex.

(** ** C150: the challenges that an end entity answers *)

Theorem C150_client :
  forall L m k size i id ri sender iv ver kc a,
  process_popdecc L m k size i id ri sender iv ver kc = Ok a <->
  m_body m = "popdecc" /\ Z.of_nat (length (m_chals m)) = size /\ versioned m /\
  exists c r t s n, nth_error (m_chals m) i = Some c /\
    (ver = Some 3 -> c_env c <> None) /\ (ver = Some 2 -> c_env c = None) /\
    finds L m k c iv ri id kc r /\ (forall x, sender = Some x -> l_same L (r_sender r) x = Ok true) /\
    m_tx m = Some t /\ m_sn m = Some s /\ m_rn m = Some n /\ a = {| a_nums := [r_int r]; a_tx := t; a_rn := s; a_sn := n |}.
Proof. exact client_iff. Qed.
Print Assumptions C150_client.
Example C150_client_ex :
  process_popdecc toy (toy_msg 2 rsa5 []) (SRsa [6]) 1 0 7 0 (Some "CN=CMP-Test-Suite") [] None None = Ok {| a_nums := [5]; a_tx := [4]; a_rn := [11]; a_sn := [12] |} /\
  process_popdecc toy (toy_msg 2 rsa5 []) (SRsa [6]) 1 0 7 0 (Some "CN") [] None None = Err EValueError /\
  process_popdecc toy (toy_msg 3 rsa5 []) (SRsa [6]) 1 0 7 0 None [] None None = Err EBadRequest /\
  process_popdecc toy (toy_msg 3 env5 []) (SRsa [6]) 1 0 7 0 None [] None None = Err EValueError.
Proof. repeat split. Qed.
Print Assumptions C150_client_ex.

Theorem C150_version : forall m u, check_version m = Ok u <-> versioned m.
Proof. exact version_iff. Qed.
Print Assumptions C150_version.
Theorem C150_recipient : forall L v ri id u, validate_rid L v id ri 0 = Ok u <-> addressed L v ri id.
Proof. exact addressed_iff. Qed.
Print Assumptions C150_recipient.
Example C150_version_ex :
  versioned (toy_msg 2 rsa5 []) /\ versioned (toy_msg 3 env5 []) /\ addressed toy {| v_recips := [Pwri; Kari [RSerial [0] 4; RKeyId]]; v_data := [] |} 1 4.
Proof.
  split; [right; split; [reflexivity|]; now intros c [<- | []]|]. split.
  - left. split; [reflexivity|]. split; [exists env5; split; [now left | discriminate] | now intros c [<- | []]].
  - eexists _, [0]. split; [reflexivity|]. split; [right; right; eauto | reflexivity].
Qed.
Print Assumptions C150_version_ex.

(** ** C151: the contents of a challenge *)

(** With the name of a hash function the witness is the hash of the four bytes of the number; a wrong one differs from
    it in the first byte only. *)
Theorem C151_witness :
  forall L q ca n id size sender bad pv ar a iv c small rnd noise v x ct z,
  build_popdecc L q ca n id size sender bad pv ar (Some a) iv c small rnd noise = Ok (v, x, ct, z) -> a <> "" ->
  exists b d, four b z /\ l_hash L a b = Ok d /\ (bad = false -> c_wit x = d) /\ (bad = true -> c_wit x <> d /\ tl (c_wit x) = tl d) /\
              exists i, l_sha L a = Ok i /\ c_owf x = Some i.
Proof. exact built_witness. Qed.
Print Assumptions C151_witness.
Example C151_witness_ex :
  exists x y, build_popdecc toy (toy_req 2 (PRsa [6])) None (Some 66051) None 1 (Some "CN") false None (CBytes []) (Some "sha256") [] None 1 1 [] = Ok (2, x, None, 66051) /\
  build_popdecc toy (toy_req 2 (PRsa [6])) None (Some 66051) None 1 (Some "CN") true None (CBytes []) (Some "sha256") [] None 1 1 [] = Ok (2, y, None, 66051) /\
  c_wit x = [3; 2; 1; 0] /\ c_wit y = [0; 2; 1; 0] /\ four [0; 1; 2; 3] 66051.
Proof. eexists _, _. repeat split. Qed.
Print Assumptions C151_witness_ex.
Theorem C151_no_witness :
  forall L q ca n id size sender bad pv ar iv c small rnd noise v x ct z h,
  build_popdecc L q ca n id size sender bad pv ar h iv c small rnd noise = Ok (v, x, ct, z) -> h = None \/ h = Some "" ->
  c_owf x = None /\ c_wit x = if bad then noise else [].
Proof. exact built_nowitness. Qed.
Print Assumptions C151_no_witness.
Example C151_no_witness_ex :
  build_popdecc toy (toy_req 2 (PRsa [6])) None (Some 5) None 1 (Some "CN=CMP-Test-Suite") false None (CBytes []) (Some "") [] None 1 1 [] = Ok (2, rsa5, None, 5).
Proof. reflexivity. Qed.
Print Assumptions C151_no_witness_ex.

(** Finding: the end entity does not look at the witness, so a challenge with a wrong one is answered like any other. *)
Theorem C151_checked_refuted :
  forall L m k i id ri sender iv ver kc c o w,
  (forall m v, l_open L m v k kc = l_open L (with_chals m []) v k kc) ->
  process_popdecc L (with_chals m [reward o w c]) k 1 i id ri sender iv ver kc = process_popdecc L (with_chals m [c]) k 1 i id ri sender iv ver kc.
Proof. exact ignored. Qed.
Print Assumptions C151_checked_refuted.
Example C151_checked_refuted_ex :
  (forall m v, l_open toy m v (SRsa [6]) None = l_open toy (with_chals m []) v (SRsa [6]) None) /\
  process_popdecc toy (with_chals (toy_msg 2 rsa5 []) [reward (Some [1]) [0] rsa5]) (SRsa [6]) 1 0 7 0 None [] None None =
    Ok {| a_nums := [5]; a_tx := [4]; a_rn := [11]; a_sn := [12] |}.
Proof. split; reflexivity. Qed.
Print Assumptions C151_checked_refuted_ex.

(** What the end entity finds in a plain challenge: the number and the given name of the sender.  A certificate of the
    CA is not used: without a name there is no plain challenge. *)
Theorem C151_plain :
  forall L q ca n id size sender bad pv a h iv c small rnd noise v x ct z m k i rest sk kc,
  faithful (l_rand L) -> aes_ok L ->
  build_popdecc L q ca n id size sender bad pv a h iv c small rnd noise = Ok (v, x, ct, z) ->
  v <> 3 -> q_reqs q = (Ok k, i) :: rest -> opens L m k ca sk kc ->
  forall ri id' r, finds L m sk x iv ri id' kc r ->
  r_int r = z /\ exists y, sender = Some y /\ l_name L y = Ok (r_sender r).
Proof. exact content2. Qed.
Print Assumptions C151_plain.
(** In an encrypted one: the subject of the CA's certificate if it is given, or else the given name. *)
Theorem C151_encrypted :
  forall L q ca n id size sender bad pv a h iv c small rnd noise v x ct z m k i rest sk kc,
  faithful (l_rand L) ->
  build_popdecc L q ca n id size sender bad pv a h iv c small rnd noise = Ok (v, x, ct, z) ->
  v = 3 -> q_reqs q = (Ok k, i) :: rest -> unseals L m k ca sk kc ->
  forall iv' r, finds L m sk x iv' 0 (or_z id i) kc r ->
  r_int r = z /\ (forall y, c = Some y -> r_sender r = l_subject L y) /\ (forall y, c = None -> sender = Some y -> l_name L y = Ok (r_sender r)).
Proof. exact content3. Qed.
Print Assumptions C151_encrypted.
Example C151_content_ex :
  finds toy (toy_msg 2 rsa5 []) (SRsa [6]) rsa5 [] 0 0 None {| r_int := 5; r_sender := [17] |} /\
  finds toy (toy_msg 3 env5 []) (SRsa [6]) env5 [] 0 0 None {| r_int := 5; r_sender := [9; 1; 3] |} /\
  build_popdecc toy (toy_req 2 (PRsa [6])) None (Some 5) None 1 None false None (CBytes []) None [] (Some [1; 3]) 1 1 [] = Err EValueError.
Proof.
  split; [exists data5; split; reflexivity|]. split; [|reflexivity]. split; [|eexists; split; reflexivity].
  eexists _, [0]. split; [reflexivity|]. split; [now left | reflexivity].
Qed.
Print Assumptions C151_content_ex.
(** The number is the given one, or the drawn one if none or 0 is given; the request has the announced number of
    entries; the version is the given one, or that of the request. *)
Theorem C151_number :
  forall L q ca n id size sender bad pv a h iv c small rnd noise v x ct z,
  build_popdecc L q ca n id size sender bad pv a h iv c small rnd noise = Ok (v, x, ct, z) ->
  size = Z.of_nat (length (q_reqs q)) /\
  (forall g, n = Some g -> g <> 0 -> z = g) /\ (n = None \/ n = Some 0 -> z = small) /\
  (forall g, pv = Some g -> g <> 0 -> v = g) /\ (pv = None \/ pv = Some 0 -> v = q_pvno q) /\
  (v = 3 <-> c_env x <> None).
Proof.
  intros L q ca n id size sender bad pv a h iv c small rnd noise v x ct z B. apply popdecc_cases in B.
  destruct B as (k & i & rest & _ & Sz & Ve & Zn & C). split; [exact Sz|].
  assert (O : forall o d y, y = or_z o d -> (forall g, o = Some g -> g <> 0 -> y = g) /\ (o = None \/ o = Some 0 -> y = d)).
  { intros o d y ->. unfold or_z. split; [intros g -> G; now rewrite (proj2 (Z.eqb_neq _ _) G) | intros [-> | ->]; reflexivity]. }
  destruct (O _ _ _ Zn) as (A1 & A2). destruct (O _ _ _ Ve) as (A3 & A4). split; [exact A1|]. split; [exact A2|]. split; [exact A3|]. split; [exact A4|].
  destruct C as [(V & _ & C) | (V & C)].
  - unfold prepare_enc_rand in C. GenProofs.step C rr R. GenProofs.step C e E. GenProofs.step C w W. GenProofs.step C b Bb. injection C as <-. split; [discriminate | auto].
  - apply simple_shape in C. destruct C as (C & _). split; [contradiction | congruence].
Qed.
Print Assumptions C151_number.
Example C151_number_ex :
  exists x, build_popdecc toy (toy_req 3 (PRsa [6])) None (Some 0) None 1 (Some "CN") false (Some 2) (CBytes []) None [] None 77 1 [] = Ok (2, x, None, 77).
Proof. eexists. reflexivity. Qed.
Print Assumptions C151_number_ex.

(** ** C152: the open challenges of the Mock CA *)

Theorem C152_open :
  forall L F s p q num small rnd noise s' v x ct z,
  mock_challenge L F s p q num small rnd noise = Ok (s', (v, x, ct, z)) ->
  exists t, q_tx q = Some t /\ (forall o, In o s' <-> In o s \/ o = (z, t)) /\ v = q_pvno q /\ length (q_reqs q) = 1%nat /\
    (v = 3 -> q_mac q = false) /\ (num <> 0 -> z = num) /\ (num = 0 -> z = small).
Proof. exact mock_state. Qed.
Print Assumptions C152_open.
Example C152_open_ex :
  exists x, mock_challenge toy toy_conf [(8, [2]); (5, [4])] "keyAgreement" (toy_req 2 (PDh "EC" [6])) 5 1 1 [] = Ok ([(8, [2]); (5, [4])], (2, x, None, 5)).
Proof. eexists. reflexivity. Qed.
Print Assumptions C152_open_ex.

(** The key of the CA fits the request, and a plain challenge names the test suite, an encrypted one the CA. *)
Theorem C152_key :
  forall L F s p q num small rnd noise s' v x ct z k i rest,
  mock_challenge L F s p q num small rnd noise = Ok (s', (v, x, ct, z)) -> q_reqs q = (Ok k, i) :: rest ->
  exists ca, uses F p k ca /\
    build_popdecc L q ca (Some num) None 1 (Some "CN=CMP-Test-Suite") false None (CDict (length s)) None (repeat 65 16) (Some (f_cert F)) small rnd noise
      = Ok (v, x, ct, z).
Proof. exact mock_built. Qed.
Print Assumptions C152_key.
Theorem C152_key_choice : forall F p k ca, ca_key F p k = Ok ca <-> uses F p k ca.
Proof. exact uses_iff. Qed.
Print Assumptions C152_key_choice.
Example C152_key_ex :
  uses toy_conf "keyAgreement" (PDh "EC" [6]) (Some (SDh "EC" [3])) /\ uses toy_conf "keyAgreement" (PDh "X448" [6]) None /\
  forall ca, ~ uses toy_conf "keyEncipherment" (PDh "EC" [6]) ca.
Proof.
  split; [|split].
  - right. left. split; [reflexivity|]. exists "EC", [6]. split; [reflexivity|]. right. right. repeat split; discriminate.
  - right. left. split; [reflexivity|]. exists "X448", [6]. split; [reflexivity|]. left. split; reflexivity.
  - intros ca [(_ & _ & [(r & H) | (r & H)]) | [(H & _) | (H & _)]]; [discriminate | discriminate | discriminate | contradiction].
Qed.
Print Assumptions C152_key_ex.

(** Finding: while any challenge is open, no request of version 3 gets one, because the table of open challenges is
    handed over as the value of the challenge. *)
Theorem C152_concurrent_refuted :
  forall L F s p q num small rnd noise r, s <> [] -> q_pvno q = 3 -> mock_challenge L F s p q num small rnd noise <> Ok r.
Proof. exact mock_blocked. Qed.
Print Assumptions C152_concurrent_refuted.
Example C152_concurrent_refuted_ex :
  mock_challenge toy toy_conf [] "keyEncipherment" (toy_req 3 (PRsa [6])) 5 1 1 [] = Ok ([(5, [4])], (3, env5, None, 5)) /\
  mock_challenge toy toy_conf [(8, [2])] "keyEncipherment" (toy_req 3 (PRsa [6])) 5 1 1 [] = Err EValueError.
Proof. split; reflexivity. Qed.
Print Assumptions C152_concurrent_refuted_ex.

(** ** C153: the out-of-band hash of a CA certificate *)

Definition toy_oob : olib := {|
  o_hash := fun n b => if String.eqb n "sha256" then Ok (firstn 2 b) else Err EValueError;
  o_oid := fun n => Ok "2.16.840.1.101.3.4.2.1"; o_name := fun o => Ok (if String.eqb o "2.16.840.1.101.3.4.2.1" then Some "sha256" else None);
  o_enc := fun x => h_serial x :: h_issuer x ++ h_val x; o_signer := fun c => Ok (bytes_eqb (o_subject c) (o_issuer c));
  o_null := fun b => bytes_eqb b []; o_lint := fun _ => Ok tt |}.
Definition root : ca_cert := {| o_der := [48; 3; 1]; o_issuer := []; o_serial := 7; o_subject := []; o_san := Some (true, [2]); o_ian := Some (true, [2]) |}.

Theorem C153_validated :
  forall L c x,
  validate_oob L c x = Ok tt <->
  (exists n, o_name L (h_alg x) = Ok (Some n) /\ o_hash L n (o_enc L x) = Ok (h_val x)) /\
  h_issuer x = o_issuer c /\ h_serial x = o_serial c /\ o_signer L c = Ok true /\
  (o_null L (o_subject c) = true -> alt_names_equal c) /\ o_lint L c = Ok tt.
Proof. exact oob_iff. Qed.
Print Assumptions C153_validated.
Theorem C153_prepared :
  forall L c h x,
  prepare_oob L c h = Ok x <-> o_hash L h (o_der c) = Ok (h_val x) /\ o_oid L h = Ok (h_alg x) /\ h_issuer x = o_issuer c /\ h_serial x = o_serial c.
Proof. exact oob_prepare_iff. Qed.
Print Assumptions C153_prepared.
Example C153_validated_ex :
  validate_oob toy_oob root {| h_alg := "2.16.840.1.101.3.4.2.1"; h_issuer := []; h_serial := 7; h_val := [7; 7] |} = Ok tt /\
  prepare_oob toy_oob root "sha256" = Ok {| h_alg := "2.16.840.1.101.3.4.2.1"; h_issuer := []; h_serial := 7; h_val := [48; 3] |}.
Proof. split; reflexivity. Qed.
Print Assumptions C153_validated_ex.

(** Finding: the hash that is compared is that of the structure that holds it, not that of the certificate.  So with a
    hash function without collisions a hash that was prepared for the certificate is never accepted. *)
Theorem C153_accepted_refuted :
  forall L c h x,
  prepare_oob L c h = Ok x -> o_name L (h_alg x) = Ok (Some h) ->
  (forall a b d, o_hash L h a = Ok d -> o_hash L h b = Ok d -> a = b) -> o_enc L x <> o_der c ->
  validate_oob L c x <> Ok tt.
Proof. exact oob_prepared. Qed.
Print Assumptions C153_accepted_refuted.
Definition toy_oob' : olib := {| o_hash := fun _ b => Ok b; o_oid := o_oid toy_oob; o_name := o_name toy_oob; o_enc := o_enc toy_oob;
  o_signer := o_signer toy_oob; o_null := o_null toy_oob; o_lint := o_lint toy_oob |}.
Example C153_accepted_refuted_ex :
  exists x, prepare_oob toy_oob' root "sha256" = Ok x /\ o_name toy_oob' (h_alg x) = Ok (Some "sha256") /\
  (forall a b d, o_hash toy_oob' "sha256" a = Ok d -> o_hash toy_oob' "sha256" b = Ok d -> a = b) /\ o_enc toy_oob' x <> o_der root /\
  validate_oob toy_oob' root x = Err EValueError.
Proof.
  eexists. split; [reflexivity|]. split; [reflexivity|]. split; [|split; [discriminate | reflexivity]].
  intros a b d A B. cbn in A, B. injection A as <-. injection B as <-. reflexivity.
Qed.
Print Assumptions C153_accepted_refuted_ex.
