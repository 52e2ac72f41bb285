(** A library that satisfies the laws of the EnvelopedData properties, for the examples. It is not a model of any code in
    /repo. *)
From Coq Require Import String.
From Verif Require Import Prelude PreludeFacts ProtToy ChamProofs ChamToy EnvlModel EnvlSpec.
Open Scope string_scope.
Open Scope Z_scope.
Open Scope list_scope.
Local Notation length := List.length.

(** ** Codecs *)

Definition c_alg : codec alg :=
  c_map (fun p => {| g_oid := fst p; g_par := snd p |}) (fun a => (g_oid a, g_par a)) (c_pair c_str (c_opt c_bytes)).
Definition c_pbk : codec pbk :=
  c_map (fun p => match p with (s, (i, (l, f))) => {| k_salt := s; k_iter := i; k_len := l; k_prf := f |} end)
        (fun p => (k_salt p, (k_iter p, (k_len p, k_prf p)))) (c_pair (c_opt c_bytes) (c_pair c_z (c_pair (c_opt c_z) c_str))).
Definition c_oaep : codec oaep :=
  c_map (fun p => match p with (h, (m, s)) => {| o_hash := h; o_mgf := m; o_src := s |} end)
        (fun p => (o_hash p, (o_mgf p, o_src p))) (c_pair c_str (c_pair c_bytes c_bool)).
Definition c_mqv : codec mqv :=
  c_map (fun p => match p with (a, (k, u)) => {| m_alg := a; m_key := k; m_added := u |} end)
        (fun p => (m_alg p, (m_key p, m_added p))) (c_pair c_str (c_pair c_bytes (c_opt c_bytes))).
Definition rid_to (p : Z * (bytes * Z)) : rid := if fst p =? 0 then RidSki (fst (snd p)) else RidIsn (fst (snd p)) (snd (snd p)).
Definition rid_of (r : rid) : Z * (bytes * Z) := match r with RidSki s => (0, (s, 0)) | RidIsn i n => (1, (i, n)) end.
Definition c_rid : codec rid := c_map rid_to rid_of (c_pair c_z (c_pair c_bytes c_z)).
Definition c_kemri : codec kemri :=
  c_map (fun p => match p with (ve, (ri, (ke, (ct, (kd, (kk, (uk, (wr, ky)))))))) =>
           {| km_version := ve; km_rid := ri; km_kem := ke; km_ct := ct; km_kdf := kd; km_kek := kk; km_ukm := uk; km_wrap := wr; km_key := ky |} end)
        (fun r => (km_version r, (km_rid r, (km_kem r, (km_ct r, (km_kdf r, (km_kek r, (km_ukm r, (km_wrap r, km_key r)))))))))
        (c_pair (c_opt c_z) (c_pair (c_opt c_rid) (c_pair (c_opt c_str) (c_pair (c_opt c_bytes) (c_pair (c_opt c_alg) (c_pair (c_opt c_z)
          (c_pair (c_opt c_bytes) (c_pair (c_opt c_alg) (c_opt c_bytes))))))))).
Definition kind_to (p : Z * string) : kind :=
  if fst p =? 0 then KRsa else if fst p =? 1 then KEc else if fst p =? 2 then KX25519 else if fst p =? 3 then KX448
  else if fst p =? 4 then KKem (snd p) else KOther.
Definition kind_of (k : kind) : Z * string :=
  match k with KRsa => (0, "") | KEc => (1, "") | KX25519 => (2, "") | KX448 => (3, "") | KKem o => (4, o) | KOther => (5, "") end.
Definition c_kind : codec kind := c_map kind_to kind_of (c_pair c_z c_str).
Definition c_pub : codec pub :=
  c_map (fun p => {| p_kind := fst p; p_id := snd p |}) (fun p => (p_kind p, p_id p)) (c_pair c_kind c_bytes).

Lemma good_alg : good c_alg. Proof. good_tac. Qed.
Lemma good_pbk : good c_pbk. Proof. good_tac. Qed.
Lemma good_oaep : good c_oaep. Proof. good_tac. Qed.
Lemma good_mqv : good c_mqv. Proof. good_tac. Qed.
Lemma good_rid : good c_rid. Proof. apply good_map; [now intros [] | good_tac]. Qed.
Lemma good_kemri : good c_kemri.
Proof. apply good_map; [now intros []|]. repeat first [ apply good_alg | apply good_rid | apply good_str | apply good_bytes | apply good_z | apply good_opt | apply good_pair ]. Qed.
Lemma good_kind : good c_kind. Proof. apply good_map; [now intros [] | good_tac]. Qed.
Lemma good_pub : good c_pub. Proof. apply good_map; [now intros []|]. apply good_pair; [apply good_kind | apply good_bytes]. Qed.

Lemma de_en A (c : codec A) a : good c -> de c (en c a) = Some (a, []).
Proof. intro G. pose proof (G a []) as H. now rewrite app_nil_r in H. Qed.

(** ** The library *)

(** What is sealed under a key names the key. *)
Definition seal (k m : bytes) : bytes := put k ++ m.
Definition unseal (k c : bytes) : result bytes :=
  match get c with
  | Some (k', m) => if bytes_eqb k k' then Ok m else Err EInvalidKeyData
  | None => Err EInvalidKeyData
  end.
Lemma unseal_seal k m : unseal k (seal k m) = Ok m.
Proof. unfold unseal, seal. rewrite get_put. now rewrite (proj2 (bytes_eqb_iff k k) eq_refl). Qed.

Definition aes_length (k : bytes) : bool :=
  (Z.of_nat (length k) =? 16) || (Z.of_nat (length k) =? 24) || (Z.of_nat (length k) =? 32).
Definition stretch (n : Z) (x : bytes) : bytes := firstn (Z.to_nat n) (x ++ repeat 0 (Z.to_nat n)).
Definition pad_code (p : padding) : bytes := match p with Pkcs1 => [0] | OaepPad h g => 1 :: put (sb h) ++ put (sb g) end.
Definition kind_eqb (a b : kind) : bool := (fst (kind_of a) =? fst (kind_of b)) && String.eqb (snd (kind_of a)) (snd (kind_of b)).
Definition toy_ecdh (k : priv) (p : pub) (cof : bool) : result bytes :=
  if kind_eqb (s_kind k) (p_kind p) then Ok [sum (s_pub k) + sum (p_id p); if cof then 1 else 0] else Err EValueError.
Definition KEM1 : oid := "2.16.840.1.101.3.4.4.1".
Definition KEM2 : oid := "2.16.840.1.101.3.4.4.2".
Definition toy_encaps (p : pub) (r : bytes) : result (bytes * bytes) :=
  match p_kind p with
  | KKem o => if oid_in o [KEM1; KEM2] then Ok (p_id p ++ r, seal (p_id p) r) else Err EValueError
  | _ => Err EValueError
  end.
Definition hashes : list (oid * string) :=
  [("2.16.840.1.101.3.4.2.1", "sha256"); ("2.16.840.1.101.3.4.2.2", "sha384"); ("2.16.840.1.101.3.4.2.3", "sha512")].
Definition hmacs : list (oid * string) := [("1.2.840.113549.2.9", "sha256"); ("1.2.840.113549.2.11", "sha512")].
Definition named (l : list (oid * string)) (h : string) : result oid :=
  match key_of_value h String.eqb l with Some o => Ok o | None => Err EValueError end.

Definition toy : lib := {|
  l_wrap := fun k m => if aes_length k then Ok (seal k m) else Err EValueError;
  l_unwrap := unseal;
  l_cbc := fun k iv m => Ok (seal (k ++ iv) m); l_uncbc := fun k iv c => unseal (k ++ iv) c;
  l_rsa := fun p pad r m => Ok (seal (p_id p ++ pad_code pad) (r ++ m) ++ [Z.of_nat (length r)]);
  l_unrsa := fun k pad c =>
    let! m := unseal (s_pub k ++ pad_code pad) (removelast c) in Ok (skipn (Z.to_nat (last c 0)) m);
  l_pbkdf2 := fun h salt i n pw => Ok (stretch n (i :: sb h ++ pw ++ salt));
  l_hkdf := fun h ss info n => stretch n (sb h ++ ss ++ info);
  l_x963 := fun h b z s n => Ok (stretch n (sb h ++ z ++ s));
  l_ecdh := toy_ecdh;
  l_mqv_send := fun k e p => [sum (s_pub k); sum (s_pub e); sum (p_id p)];
  l_mqv_recv := fun k p e => [sum (p_id p); sum (p_id e); sum (s_pub k)];
  l_encaps := toy_encaps;
  l_decaps := fun k ct n => let! r := unseal (s_pub k) ct in Ok (s_pub k ++ r);
  l_ivenc := put; l_ivdec := get;
  l_pbkenc := en c_pbk; l_pbkdec := de c_pbk;
  l_oaepenc := en c_oaep; l_oaepdec := de c_oaep;
  l_oidenc := en c_str; l_oiddec := de c_str;
  l_algenc := en c_alg; l_algdec := de c_alg;
  l_mqvenc := en c_mqv; l_mqvdec := de c_mqv;
  l_kemenc := en c_kemri; l_kemdec := de c_kemri;
  l_shared := fun w n u => put (sb w) ++ n :: en (c_opt c_bytes) u;
  l_other := fun w n u => en c_alg w ++ n :: en (c_opt c_bytes) u;
  l_load := read c_pub; l_spki := en c_pub;
  l_hash := fun o => Ok (find_oid o hashes); l_prf := fun o => Ok (find_oid o hmacs);
  l_hmac := named hmacs; l_sha := named hashes;
  l_kem := fun o => oid_in o [KEM1; KEM2];
  l_salt := fun a => match g_par a with Some s => Ok s | None => Err EValueError end;
  l_verify := fun m p => guard (bytes_eqb (n_rest m) p) EBadMessageCheck
|}.

Lemma kind_sym a b : kind_eqb a b = kind_eqb b a.
Proof. unfold kind_eqb. now rewrite Z.eqb_sym, String.eqb_sym. Qed.

Lemma toy_laws : laws toy.
Proof.
  constructor; cbn [toy l_wrap l_unwrap l_cbc l_uncbc l_rsa l_unrsa l_ecdh l_mqv_send l_mqv_recv l_encaps l_decaps l_ivenc l_ivdec l_pbkenc
    l_pbkdec l_oaepenc l_oaepdec l_oidenc l_oiddec l_algenc l_algdec l_mqvenc l_mqvdec l_kemenc l_kemdec l_load l_spki l_kem].
  - intros k m c H. assert (c = seal k m) as -> by (destruct (aes_length k); congruence). apply unseal_seal.
  - intros k iv m c H. injection H as <-. apply unseal_seal.
  - intros k p r m c H. assert (c = seal (s_pub k ++ pad_code p) (r ++ m) ++ [Z.of_nat (length r)]) as -> by (unfold public_key in H; cbn [p_id] in H; congruence). rewrite removelast_last, last_last, unseal_seal. cbn [bind]. rewrite Nat2Z.id.
    now rewrite skipn_app, skipn_all, Nat.sub_diag.
  - intros a b cof. unfold toy_ecdh. cbn [public_key p_kind p_id]. rewrite (kind_sym (s_kind a)). destruct (kind_eqb (s_kind b) (s_kind a)); [|reflexivity].
    now rewrite Z.add_comm.
  - intros a e b. reflexivity.
  - intros k r ss ct n H. unfold toy_encaps in H. cbn [public_key p_kind p_id] in H. destruct (s_kind k); try discriminate H.
    destruct (oid_in o [KEM1; KEM2]); [|discriminate H]. injection H as <- <-. now rewrite unseal_seal.
  - intros k r ss ct o H K. unfold toy_encaps in H. cbn [public_key p_kind] in H. rewrite K in H. destruct (oid_in o [KEM1; KEM2]); [reflexivity | discriminate H].
  - intro x. exact (de_en _ c_bytes x good_bytes).
  - intro x. apply de_en, good_pbk.
  - intro x. apply de_en, good_oaep.
  - intro x. exact (de_en _ c_str x good_str).
  - intro x. apply de_en, good_alg.
  - intro x. apply de_en, good_mqv.
  - intro x. apply de_en, good_kemri.
  - intro p. apply read_en, good_pub.
Qed.

(** ** Keys, certificates and messages *)

Definition key (k : kind) (i : Z) : priv := {| s_kind := k; s_pub := [i]; s_id := [i; i] |}.
Definition cert_for (k : priv) (ski : option bytes) : cert :=
  {| c_ski := ski; c_issuer := [1; 2]; c_serial := 77; c_spki := en c_pub (public_key k) |}.
Definition cek32 : bytes := repeat 7 32.
Definition iv16 : bytes := repeat 9 16.
Definition message (salt pw : bytes) (extra : list cert) : msg :=
  {| n_prot := Some {| g_oid := "1.2.840.113533.7.66.13"; g_par := Some salt |}; n_extra := extra; n_rest := pw |}.
Definition holder (k : priv) (c : cert) : given :=
  {| i_msg := None; i_pw := None; i_cert := Some c; i_kari := Some c; i_key := Some k; i_pop := false; i_null := false; i_salt := None |}.
Definition knows (pw : bytes) (m : msg) : given :=
  {| i_msg := Some m; i_pw := Some pw; i_cert := None; i_kari := None; i_key := None; i_pop := false; i_null := false; i_salt := None |}.
Definition the {A} (d : A) (r : result A) : A := match r with Ok a => a | Err _ => d end.
Definition no_content : eci := {| e_type := DATA; e_alg := {| g_oid := ""; g_par := None |}; e_data := None |}.
Definition no_env : env := {| v_version := 0; v_recips := []; v_content := no_content |}.
