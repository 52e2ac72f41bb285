(** A library that satisfies the assumptions of the catalyst properties, for the examples. It is not a model of any code in
    /repo. *)
From Coq Require Import String.
From Verif Require Import Prelude PreludeFacts ProtToy ProtTab ChamProofs ChamToy CatModel CatSpec.
From Verif Require EnvlToy.
Open Scope string_scope.
Open Scope Z_scope.
Open Scope list_scope.

Definition cd_alg : codec alg :=
  c_map (fun p => {| g_oid := fst p; g_par := snd p |}) (fun a => (g_oid a, g_par a)) (c_pair c_str (c_opt c_bytes)).
Definition cd_spki : codec spki :=
  c_map (fun p => {| k_alg := fst p; k_bits := snd p |}) (fun a => (k_alg a, k_bits a)) (c_pair cd_alg c_bytes).
Definition cd_ext : codec ext :=
  c_map (fun p => {| x_id := fst p; x_crit := fst (snd p); x_val := snd (snd p) |})
        (fun e => (x_id e, (x_crit e, x_val e))) (c_pair c_str (c_pair c_bool c_bytes)).
Lemma good_alg : good cd_alg. Proof. good_tac. Qed.
Lemma good_spki : good cd_spki.
Proof. apply good_map; [now intros []|]. apply good_pair; [apply good_alg | apply good_bytes]. Qed.

(** A key is its number and its kind: 0 is RSA, 2 is ML-DSA-44. *)
Definition toy_pub (n kind : Z) : pub := {| u_id := [n; kind] |}.
Definition toy_key (n kind : Z) : skey := {| s_id := [n; kind] |}.
Definition toy_spki (n kind : Z) : spki :=
  {| k_alg := {| g_oid := if kind =? 0 then "rsaEncryption" else "pq:ml-dsa-44"; g_par := None |}; k_bits := [n; kind] |}.
(** A signature names the key and repeats the data; that of an RSA key names the padding and the hash, too. *)
Definition toy_sig (id : bytes) (h : option string) (pss : bool) (d : bytes) : bytes :=
  id ++ (if nth 1 id 0 =? 0 then (if pss then 1 else 0) :: put (sb (match h with Some x => x | None => "" end)) else []) ++ d.
Definition toy_hash (o : string) : option string := match get_hash_from_oid o true with Ok h => h | Err _ => None end.
Definition toy : lib := {|
  l_algenc := en cd_alg; l_algdec := de cd_alg; l_spkienc := en cd_spki; l_spkidec := de cd_spki; l_bitsenc := put; l_bitsdec := get;
  l_tbsenc := fun t => put (t_rest t) ++ en (c_opt cd_alg) (t_alg t) ++ en cd_spki (t_spki t) ++ en (c_opt (c_list cd_ext)) (t_exts t);
  l_preenc := fun p => put (p_rest p) ++ en cd_spki (p_spki p) ++ en (c_list cd_ext) (p_exts p);
  l_crlenc := fun r x => put r ++ en (c_opt (c_list cd_ext)) x;
  l_str := fun o => o;
  l_load := fun s => match k_bits s with [n; k] => Ok (toy_pub n k) | _ => Err EInvalidKeyData end;
  l_verifies := fun k => Nat.eqb (List.length (u_id k)) 2;
  l_pub := fun k => {| u_id := s_id k |};
  l_spki := fun k => match u_id k with [n; x] => Ok (toy_spki n x) | _ => Err EValueError end;
  l_sigalg := fun k h pss =>
    if nth 1 (s_id k) 0 =? 0 then
      if pss then Ok {| g_oid := "id_RSASSA_PSS"; g_par := Some [] |}
      else match h with
           | Some x => if String.eqb x "sha256" then Ok {| g_oid := "sha256WithRSAEncryption"; g_par := None |}
                       else if String.eqb x "sha512" then Ok {| g_oid := "sha512WithRSAEncryption"; g_par := None |}
                       else Err EValueError
           | None => Err EValueError
           end
    else Ok {| g_oid := "pq:ml-dsa-44"; g_par := None |};
  l_sign := fun k d h pss => Ok (toy_sig (s_id k) h pss d);
  l_verify_alg := fun k a d s => guard (bytes_eqb s (toy_sig (u_id k) (toy_hash (g_oid a)) (String.eqb (g_oid a) "id_RSASSA_PSS") d)) EInvalidSignature;
  l_verify_hash := fun k h d s => guard (bytes_eqb s (toy_sig (u_id k) h false d)) EInvalidSignature;
  l_spoil := fun s _ => match s with z :: r => Ok ((z + 1) :: r) | [] => Err EIndexError end
|}.
Lemma toy_laws : cat_laws toy.
Proof.
  constructor; cbn [toy l_algenc l_algdec l_spkienc l_spkidec l_bitsenc l_bitsdec l_spki l_load].
  - intros a. apply EnvlToy.de_en, good_alg.
  - intros a. apply EnvlToy.de_en, good_spki.
  - intros a. exact (EnvlToy.de_en _ c_bytes a good_bytes).
  - intros [id] s. cbn [u_id]. destruct id as [|n [|k [|]]]; try discriminate. intros H. injection H as <-. reflexivity.
Qed.
Lemma refl_guard b e : guard (bytes_eqb b b) e = Ok tt.
Proof. assert (bytes_eqb b b = true) as -> by now apply bytes_eqb_iff. reflexivity. Qed.
Lemma toy_sound_pq n pqh pss : sound_hash toy (toy_key n 2) pqh pss.
Proof.
  intros a d s H1 H2. assert (a = {| g_oid := "pq:ml-dsa-44"; g_par := None |}) as -> by (cbn in H1; congruence).
  exists None. split; [reflexivity|]. cbn [toy l_sign l_verify_hash l_pub toy_key s_id u_id] in *. injection H2 as <-. apply refl_guard.
Qed.
Lemma toy_sound_pq_alg n pqh pss : sound_alg toy (toy_key n 2) pqh pss false.
Proof.
  intros a d s H1 H2. cbn [toy l_sign l_verify_alg l_pub toy_key s_id u_id] in *. injection H2 as <-. apply refl_guard.
Qed.
Lemma toy_spoils n pqh pss : spoils toy (toy_key n 2) pqh pss.
Proof.
  intros a d s s' H1 H2 H3. assert (a = {| g_oid := "pq:ml-dsa-44"; g_par := None |}) as -> by (cbn in H1; congruence).
  exists None. split; [reflexivity|]. cbn [toy l_sign l_spoil l_verify_hash l_pub toy_key s_id u_id] in *. injection H2 as <-.
  unfold toy_sig in *. cbn [app] in *. injection H3 as <-.
  match goal with |- guard ?b _ = _ => assert (b = false) as -> end; [|reflexivity].
  match goal with |- ?b = false => destruct b eqn:E; [|reflexivity] end. apply bytes_eqb_iff in E. injection E as E. exfalso. lia.
Qed.
Lemma toy_sound_rsa n h : sound_hash toy (toy_key n 0) (Some h) false.
Proof.
  intros a d s H1 H2. cbn [toy l_sigalg l_sign l_verify_hash l_pub toy_key s_id u_id nth] in *. change (0 =? 0) with true in H1. cbn iota in H1. injection H2 as <-.
  destruct (String.eqb_spec h "sha256") as [->|]; [|destruct (String.eqb_spec h "sha512") as [->|]; [|discriminate H1]]; injection H1 as <-.
  - exists (Some "sha256"). split; [reflexivity | apply refl_guard].
  - exists (Some "sha512"). split; [reflexivity | apply refl_guard].
Qed.
Lemma toy_sound_rsa_alg n h : sound_alg toy (toy_key n 0) (Some h) false false.
Proof.
  intros a d s H1 H2. cbn [toy l_sigalg l_sign l_verify_alg l_pub toy_key s_id u_id nth] in *. change (0 =? 0) with true in H1. cbn iota in H1. injection H2 as <-.
  destruct (String.eqb_spec h "sha256") as [->|]; [|destruct (String.eqb_spec h "sha512") as [->|]; [|discriminate H1]]; injection H1 as <-; apply refl_guard.
Qed.
Lemma toy_sound_pss n : sound_alg toy (toy_key n 0) (Some "sha256") true true.
Proof.
  intros a d s H1 H2. cbn [toy l_sigalg l_sign l_verify_alg l_pub toy_key s_id u_id nth] in *. change (0 =? 0) with true in H1. cbn iota in H1. injection H2 as <-.
  injection H1 as <-. apply refl_guard.
Qed.

(** ** Certificates and lists *)

Definition mk_cert (n : Z) (s : spki) (x : option (list ext)) : cert :=
  {| c_tbs := {| t_rest := [n]; t_alg := None; t_spki := s; t_exts := x |}; c_alg := None; c_sig := [] |}.
Definition sha256 : option string := Some "sha256".
Definition usage : ext := {| x_id := "id_ce_keyUsage"; x_crit := true; x_val := [3] |}.
Definition the_cert (r : result cert) : cert := match r with Ok c => c | Err _ => mk_cert 0 (toy_spki 0 0) None end.
(** A certificate of the key 7, signed with the keys 6 (ML-DSA) and 1 (RSA). *)
Definition plain7 : cert := mk_cert 7 (toy_spki 7 0) (Some [usage]).
Definition cert7 : cert := the_cert (sign_cert_catalyst toy plain7 (toy_key 6 2) (toy_key 1 0) None sha256 false false false).
(** The issuer: its alternative key is 5. *)
Definition issuer1 : cert := the_cert (sign_cert_catalyst toy (mk_cert 1 (toy_spki 1 0) None) (toy_key 5 2) (toy_key 1 0) None sha256 false false false).
(** A certificate signed twice, first with the alternative key 5. *)
Definition twice7 : cert :=
  the_cert (sign_cert_catalyst toy (the_cert (sign_cert_catalyst toy plain7 (toy_key 5 2) (toy_key 1 0) None sha256 false false false))
              (toy_key 6 2) (toy_key 1 0) None sha256 false false false).
(** A certificate that claims that its ML-DSA signature is one of Falcon. *)
Definition falcon : alg := {| g_oid := "pq:falcon-512"; g_par := None |}.
Definition claim_exts : list ext := [{| x_id := ALT_ALG; x_crit := false; x_val := l_algenc toy falcon |}; {| x_id := ALT_SPKI; x_crit := false; x_val := l_spkienc toy (toy_spki 6 2) |}].
Definition claim7 : cert :=
  let c0 := mk_cert 7 (toy_spki 7 0) (Some claim_exts) in
  let s := toy_sig [6; 2] None false (covered toy c0) in
  the_cert (sign_cert toy (toy_key 1 0) (mk_cert 7 (toy_spki 7 0) (Some (claim_exts ++ [{| x_id := ALT_SIG; x_crit := false; x_val := l_bitsenc toy s |}]))) sha256 false).
(** A certificate whose alternative key is followed by other data. *)
Definition trail_exts : list ext := [{| x_id := ALT_ALG; x_crit := false; x_val := l_algenc toy {| g_oid := "pq:ml-dsa-44"; g_par := None |} |}; {| x_id := ALT_SPKI; x_crit := false; x_val := l_spkienc toy (toy_spki 6 2) ++ [9] |}].
Definition trail7 : cert :=
  let c0 := mk_cert 7 (toy_spki 7 0) (Some trail_exts) in
  let s := toy_sig [6; 2] None false (covered toy c0) in
  the_cert (sign_cert toy (toy_key 1 0) (mk_cert 7 (toy_spki 7 0) (Some (trail_exts ++ [{| x_id := ALT_SIG; x_crit := false; x_val := l_bitsenc toy s |}]))) sha256 false).
(** A list with a number. *)
Definition number : ext := {| x_id := "id_ce_cRLNumber"; x_crit := false; x_val := [2; 1; 5] |}.
Definition crl0 (x : option (list ext)) : crl := {| r_rest := [8]; r_exts := x; r_alg := {| g_oid := ""; g_par := None |}; r_sig := [] |}.
Definition the_crl (r : result crl) : crl := match r with Ok c => c | Err _ => crl0 None end.
