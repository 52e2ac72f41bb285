(** Libraries that satisfy the assumptions of the message protection properties, for the examples. They are not a model
    of any code in /repo. *)
From Coq Require Import String Ascii Lia.
From Verif Require Import Prelude PreludeFacts PyStr CompLoadModel HdrModel ProtTab ProtModel ProtSpec.
Open Scope string_scope.
Open Scope Z_scope.
Open Scope list_scope.
Local Notation length := List.length.

Fixpoint sb (s : string) : bytes := match s with EmptyString => [] | String c r => Z.of_N (N_of_ascii c) :: sb r end.
Fixpoint bs (l : bytes) : string := match l with [] => EmptyString | x :: r => String (ascii_of_N (Z.to_N x)) (bs r) end.
Lemma bs_sb : forall s, bs (sb s) = s.
Proof. induction s as [|c s IH]; cbn [sb bs]; [reflexivity|]. now rewrite N2Z.id, ascii_N_embedding, IH. Qed.

Definition put (l : bytes) : bytes := Z.of_nat (length l) :: l.
Definition get (l : bytes) : option (bytes * bytes) :=
  match l with
  | [] => None
  | n :: r => Some (firstn (Z.to_nat n) r, skipn (Z.to_nat n) r)
  end.
Lemma get_put : forall l r, get (put l ++ r) = Some (l, r).
Proof.
  intros l r. unfold put, get. cbn [app]. rewrite Nat2Z.id, firstn_app, skipn_app, firstn_all, skipn_all, Nat.sub_diag.
  cbn [firstn skipn app]. now rewrite app_nil_r.
Qed.
Definition put_opt (o : option bytes) : bytes := match o with None => [0] | Some l => (1 :: put l)%list end.

Fixpoint enc_alg (a : algid) : bytes :=
  match a with Alg o p => (put (sb o) ++ match p with PAbsent => [0] | _ => 1 :: put (enc_par p) end)%list end
with enc_par (p : params) : bytes :=
  match p with
  | PAbsent => []
  | PRaw b => b
  | PNull => [5; 0]
  | POctets b => (4 :: put b)%list
  | PPbmac1 k m => (enc_alg k ++ enc_alg m)%list
  | PPbkdf2 s i n a => (enc_salt s ++ i :: (match n with Some x => [1; x] | None => [0] end) ++ enc_alg a)%list
  | PPbm s o i m => (put s ++ enc_alg o ++ i :: enc_alg m)%list
  | PGcm n => put n
  | PDhbm o m => (enc_alg o ++ enc_alg m)%list
  | PKem k c n m => (enc_alg k ++ put_opt c ++ n :: enc_alg m)%list
  | PPss h g n => (enc_alg h ++ enc_alg g ++ [n])%list
  | PAlg a => enc_alg a
  | PCt a c => (enc_alg a ++ put c)%list
  end
with enc_salt (s : psalt) : bytes :=
  match s with SaltSpec b => (0 :: put b)%list | SaltOther a => (1 :: enc_alg a)%list end.

Definition obind {A B} (x : option A) (f : A -> option B) : option B := match x with Some y => f y | None => None end.
Definition dec_alg (l : bytes) : option (algid * bytes) :=
  obind (get l) (fun q =>
    match snd q with
    | 0 :: r => Some (Alg (bs (fst q)) PAbsent, r)
    | _ :: r => obind (get r) (fun t => Some (Alg (bs (fst q)) (PRaw (fst t)), snd t))
    | [] => None
    end).
Definition dec_opt (l : bytes) : option (option bytes * bytes) :=
  match l with
  | 0 :: r => Some (None, r)
  | _ :: r => obind (get r) (fun t => Some (Some (fst t), snd t))
  | [] => None
  end.
Definition dec_int (l : bytes) : option (Z * bytes) := match l with [] => None | x :: r => Some (x, r) end.
Definition dec_salt (l : bytes) : option (psalt * bytes) :=
  match l with
  | 0 :: r => obind (get r) (fun t => Some (SaltSpec (fst t), snd t))
  | _ :: r => obind (dec_alg r) (fun t => Some (SaltOther (fst t), snd t))
  | [] => None
  end.
Definition dec_olen (l : bytes) : option (option Z * bytes) :=
  match l with 0 :: r => Some (None, r) | _ :: x :: r => Some (Some x, r) | _ => None end.

Definition toy_sum (l : bytes) : Z := fold_right (fun x s => (x + 3 * s) mod 251) 7 l.
Definition scheme_code (s : scheme) : bytes :=
  match s with
  | SPkcs1 h => (1 :: put (sb h))%list | SPss h n => (2 :: n :: put (sb h))%list | SPssShake h n => (3 :: n :: put (sb h))%list
  | SEcdsa h => (4 :: put (sb h))%list | SEd => [5] | SDsa h => (6 :: put (sb h))%list
  | SPq None => [7] | SPq (Some h) => (8 :: put (sb h))%list | SStf => [9] | SComp b => [10; if b then 1 else 0]
  end.
Definition toy_sign (s : scheme) (k : key) (d : bytes) : bytes := (scheme_code s ++ k_id k :: d)%list.
Definition same_curve (a b : kkind) : bool :=
  match a, b with KEc, KEc | KX25519, KX25519 | KX448, KX448 => true | _, _ => false end.
Definition enc_info (i : info) : bytes :=
  (put (sb (i_type i)) ++ match i_val i with PAbsent => [0] | p => 1 :: put (enc_par p) end)%list.
Fixpoint enc_infos (l : list info) : bytes := match l with [] => [0] | i :: r => (1 :: enc_info i ++ enc_infos r)%list end.
Definition enc_header (h : header) : bytes :=
  (put_opt (h_sender h) ++ put_opt (option_map enc_alg (h_alg h)) ++ put_opt (h_kid h) ++ put_opt (h_tx h)
   ++ enc_infos (h_info h) ++ put (h_rest h))%list.

Definition toy : lib := {|
  l_enc := enc_par;
  l_tlv := fun _ => true;
  l_dec_pbmac1 l := obind (dec_alg l) (fun q => obind (dec_alg (snd q)) (fun t => Some ((fst q, fst t), snd t)));
  l_dec_pbkdf2 l := obind (dec_salt l) (fun q => obind (dec_int (snd q)) (fun t => obind (dec_olen (snd t)) (fun u =>
    obind (dec_alg (snd u)) (fun w => Some ((fst q, fst t, fst u, fst w), snd w)))));
  l_dec_pbm l := obind (get l) (fun q => obind (dec_alg (snd q)) (fun t => obind (dec_int (snd t)) (fun u =>
    obind (dec_alg (snd u)) (fun w => Some ((fst q, fst t, fst u, fst w), snd w)))));
  l_dec_gcm := get;
  l_dec_dhbm l := obind (dec_alg l) (fun q => obind (dec_alg (snd q)) (fun t => Some ((fst q, fst t), snd t)));
  l_dec_kem l := obind (dec_alg l) (fun q => obind (dec_opt (snd q)) (fun t => obind (dec_int (snd t)) (fun u =>
    obind (dec_alg (snd u)) (fun w => Some ((fst q, fst t, fst u, fst w), snd w)))));
  l_dec_pss l := obind (dec_alg l) (fun q => obind (dec_alg (snd q)) (fun t => obind (dec_int (snd t)) (fun u =>
    Some ((fst q, fst t, fst u), snd u))));
  l_dec_alg := dec_alg;
  l_dec_ct l := obind (dec_alg l) (fun q => obind (get (snd q)) (fun t => Some ((fst q, fst t), snd t)));
  l_part h b := Some (enc_header h ++ b)%list;
  l_other_info tx ctx := (put tx ++ put_opt ctx)%list;
  l_hash h x := repeat (toy_sum (sb h ++ x)%list) (Z.to_nat (digest_size h));
  l_hmac h k d := (put (sb h) ++ put k ++ d)%list;
  l_kmac h k d := Ok (9 :: put (sb h) ++ put k ++ d)%list;
  l_gmac k n d := Ok (8 :: put k ++ put n ++ d)%list;
  l_pbkdf2 h k s i n := Ok (repeat (toy_sum (sb h ++ k ++ s ++ [i])%list) (Z.to_nat n));
  l_hkdf h ss oi n := Ok (repeat (toy_sum (sb h ++ ss ++ oi)%list) (Z.to_nat n));
  l_ecdh a b := if same_curve (k_kind a) (k_kind b) then Ok [k_id a * k_id b; 17; 23] else Err EValueError;
  l_encaps k seed := Ok ((k_id k :: seed)%list, seed);
  l_decaps k ct := Ok (k_id k :: ct)%list;
  l_sign _ s k d := Ok (toy_sign s k d);
  l_verify s k v d := guard (bytes_eqb v (toy_sign s k d)) EInvalidSignature;
  l_self_cert _ k := Ok {| c_der := [k_id k]; c_pub := Ok k; c_sig := "sha256WithRSAEncryption"; c_ski := None; c_name := [1]; c_subject := [2] |};
  l_chain c := Ok [c]
|}.

Lemma wire_flag : forall p, (match wire toy p with PAbsent => [0] | q => 1 :: put (enc_par q) end)%list =
  (match p with PAbsent => [0] | q => 1 :: put (enc_par q) end)%list.
Proof. intros []; reflexivity. Qed.
Lemma enc_wire : forall a, enc_alg (wire_alg toy a) = enc_alg a.
Proof. intros [o p]. unfold wire_alg. cbn [a_oid a_params enc_alg]. destruct p; reflexivity. Qed.
Lemma dec_enc : forall a r, dec_alg (enc_alg a ++ r) = Some (wire_alg toy a, r).
Proof.
  intros [o p] r. unfold dec_alg. cbn [enc_alg]. rewrite <- app_assoc, get_put. cbn [obind snd fst]. rewrite bs_sb.
  destruct p; cbn [app]; try reflexivity; rewrite get_put; reflexivity.
Qed.
Lemma dec_enc0 : forall a, dec_alg (enc_alg a) = Some (wire_alg toy a, []).
Proof. intro a. rewrite <- (app_nil_r (enc_alg a)). apply dec_enc. Qed.
Lemma get_put0 : forall l, get (put l) = Some (l, []).
Proof. intro l. rewrite <- (app_nil_r (put l)). apply get_put. Qed.
Lemma dec_opt_put : forall o r, dec_opt (put_opt o ++ r) = Some (o, r).
Proof. intros [l|] r; [|reflexivity]. cbn [put_opt app dec_opt]. now rewrite get_put. Qed.

Lemma toy_codec : codec_ok toy.
Proof.
  constructor; cbn [toy l_enc l_tlv l_dec_pbmac1 l_dec_pbkdf2 l_dec_pbm l_dec_gcm l_dec_dhbm l_dec_kem l_dec_pss l_dec_alg l_dec_ct].
  - split; reflexivity.
  - intros k m _. cbn [enc_par]. rewrite dec_enc. cbn [obind snd fst]. now rewrite dec_enc0.
  - intros s i n a _. cbn [enc_par].
    assert (S : forall r, dec_salt (enc_salt s ++ r) = Some (wire_salt toy s, r)).
    { intro r. destruct s as [b|x]; cbn [enc_salt app dec_salt]; [now rewrite get_put|now rewrite dec_enc]. }
    rewrite S. cbn [obind snd fst dec_int]. destruct n as [x|]; cbn [app dec_olen obind snd fst]; now rewrite dec_enc0.
  - intros s o i m _. cbn [enc_par]. rewrite get_put. cbn [obind snd fst]. rewrite dec_enc. cbn [obind snd fst dec_int]. now rewrite dec_enc0.
  - intro n. apply get_put0.
  - intros o m _. cbn [enc_par]. rewrite dec_enc. cbn [obind snd fst]. now rewrite dec_enc0.
  - intros k c n m _. cbn [enc_par]. rewrite dec_enc. cbn [obind snd fst]. rewrite dec_opt_put. cbn [obind snd fst dec_int]. now rewrite dec_enc0.
  - intros h g n _. cbn [enc_par]. rewrite dec_enc. cbn [obind snd fst]. now rewrite dec_enc.
  - intros a _. apply dec_enc0.
  - intros a c _. cbn [enc_par]. rewrite dec_enc. cbn [obind snd fst]. now rewrite get_put0.
Qed.

Lemma put_inj : forall l l' r r', (put l ++ r = put l' ++ r')%list -> l = l' /\ r = r'.
Proof. intros l l' r r' H. pose proof (get_put l r) as A. rewrite H, get_put in A. inversion A; auto. Qed.
Lemma opt_inj : forall o o' r r', (put_opt o ++ r = put_opt o' ++ r')%list -> o = o' /\ r = r'.
Proof. intros o o' r r' H. pose proof (dec_opt_put o r) as A. rewrite H, dec_opt_put in A. inversion A; auto. Qed.
Lemma alg_inj : forall a a' r r', (enc_alg a ++ r = enc_alg a' ++ r')%list -> wire_alg toy a = wire_alg toy a' /\ r = r'.
Proof. intros a a' r r' H. pose proof (dec_enc a r) as A. rewrite H, dec_enc in A. split; congruence. Qed.
Lemma sb_inj : forall s s', sb s = sb s' -> s = s'.
Proof. intros s s' H. rewrite <- (bs_sb s), H. apply bs_sb. Qed.
Lemma info_as_alg : forall i, enc_info i = enc_alg (Alg (i_type i) (i_val i)).
Proof. intros [t v]. unfold enc_info. cbn [i_type i_val]. destruct v; reflexivity. Qed.
Lemma info_inj : forall i i' r r', (enc_info i ++ r = enc_info i' ++ r')%list -> wire_info toy i = wire_info toy i' /\ r = r'.
Proof.
  intros i i' r r' H. rewrite !info_as_alg in H. apply alg_inj in H as (E & R). split; [|exact R].
  unfold wire_alg in E. cbn [a_oid a_params] in E. unfold wire_info. inversion E. congruence.
Qed.
Lemma infos_inj : forall l l' r r', (enc_infos l ++ r = enc_infos l' ++ r')%list ->
  List.map (wire_info toy) l = List.map (wire_info toy) l' /\ r = r'.
Proof.
  induction l as [|i l IH]; intros [|i' l'] r r' H; cbn [enc_infos app List.map] in *; try discriminate H.
  - inversion H; auto.
  - assert (H1 : enc_info i ++ enc_infos l ++ r = enc_info i' ++ enc_infos l' ++ r') by (rewrite !app_assoc; congruence). apply info_inj in H1 as (E & H1). apply IH in H1 as (E2 & R).
    split; [now rewrite E, E2|exact R].
Qed.
Lemma infos_wire : forall l, enc_infos (List.map (wire_info toy) l) = enc_infos l.
Proof.
  induction l as [|i l IH]; cbn [List.map enc_infos]; [reflexivity|]. rewrite IH. do 2 f_equal.
  rewrite !info_as_alg. exact (enc_wire (Alg (i_type i) (i_val i))).
Qed.
Lemma toy_part : part_ok toy.
Proof.
  constructor; cbn [toy l_part].
  - intros h b. f_equal. f_equal. unfold enc_header. cbn [wire_header h_sender h_alg h_kid h_tx h_info h_rest].
    rewrite infos_wire. destruct (h_alg h) as [a|]; cbn [option_map]; [now rewrite enc_wire|reflexivity].
  - intros h b h' b' d _ _ H H'. assert (E : (enc_header h ++ b = enc_header h' ++ b')%list) by congruence. clear H H' d.
    unfold enc_header in E. rewrite <- !app_assoc in E.
    apply opt_inj in E as (E1 & E). apply opt_inj in E as (E2 & E). apply opt_inj in E as (E3 & E). apply opt_inj in E as (E4 & E).
    apply infos_inj in E as (E5 & E). apply put_inj in E as (E6 & E). split; [|exact E].
    unfold wire_header. rewrite E1, E3, E4, E5, E6. f_equal.
    destruct (h_alg h) as [a|], (h_alg h') as [a'|]; cbn [option_map] in *; try discriminate E2; [|reflexivity].
    inversion E2 as [E7]. f_equal. apply (alg_inj a a' [] []). now rewrite !app_nil_r.
Qed.
Lemma toy_prim : prim_ok toy.
Proof.
  constructor; cbn [toy l_hash l_ecdh l_encaps l_decaps l_sign l_verify].
  - intros h n x H. rewrite repeat_length. unfold digest_size. rewrite H.
    assert (0 <= n) by (clear - H; unfold ALLOWED_HASH_TYPES, lookup in H; repeat match type of H with (if ?b then _ else _) = _ => destruct b; [inversion H; lia|] end; discriminate H).
    lia.
  - intros a b s H. rewrite Z.mul_comm. destruct (k_kind a), (k_kind b); exact H.
  - intros k seed s ct H. inversion H; subst. reflexivity.
  - intros rnd s k d v H. inversion H; subst. now rewrite bytes_eqb_refl.
Qed.
Theorem toy_ok : lib_ok toy.
Proof. constructor; [apply toy_codec|apply toy_part|apply toy_prim]. Qed.
Definition toy_rnd (n : Z) : bytes := repeat 42 (Z.to_nat n).
Lemma toy_urandom : is_urandom toy_rnd.
Proof. intros n N. unfold toy_rnd. rewrite repeat_length. lia. Qed.
