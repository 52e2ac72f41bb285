(** The properties of EnvelopedData (C116, C117), see properties.jsonl. *)
From Coq Require Import String.
From Verif Require Import Prelude HdrModel ProtMac EnvlModel EnvlSpec EnvlProofs EnvlBuild EnvlForm EnvlToy.
Open Scope string_scope.
Open Scope Z_scope.
Open Scope list_scope.

(** ** C116: what is opened *)

(** The content is decrypted exactly when it has the expected type, its algorithm fits the key and its IV has 16 bytes. *)
Theorem C116_content : forall L e cek raw d, open_content L e cek raw = Ok d <-> content_opens L e cek raw d.
Proof. exact content_exact. Qed.
Print Assumptions C116_content.
(** For a password: exactly when the recipient at the position yields the key for the password, the salt is not the one of the
    protection, and the protection is valid under the same password unless that is skipped. *)
Theorem C116_password : forall L v pw m salt size index raw skip d,
  open_pwri L v pw m salt size index raw skip = Ok d
  <-> exists r p s cek, recipient v size index (Pwri r) /\ pw = Some p /\ protection_salt L m salt s
        /\ pwri_yields L r s p cek /\ content_opens L (v_content v) cek raw d
        /\ (skip = true \/ exists m', m = Some m' /\ l_verify L m' p = Ok tt).
Proof. exact open_pwri_exact. Qed.
Print Assumptions C116_password.
(** For a KEM key. *)
Theorem C116_kem : forall L v k c size index pop raw sun d,
  open_kemri L v k c size index pop raw sun = Ok d
  <-> exists x r cek, recipient v size index (Ori ORI_KEM x) /\ l_kemdec L x = Some (r, [])
        /\ kemri_yields L r c pop sun k cek /\ content_opens L (v_content v) cek raw d.
Proof. exact open_kemri_exact. Qed.
Print Assumptions C116_kem.
(** For a key agreement. *)
Theorem C116_agreement : forall L v k c raw pop d,
  open_kari L v k c raw pop = Ok d
  <-> exists r c' cek, v_recips v = [Kari r] /\ c = Some c' /\ kari_yields L r c pop k c' cek
        /\ content_opens L (v_content v) cek raw d.
Proof. exact open_kari_exact. Qed.
Print Assumptions C116_agreement.
(** The key of the content is had exactly when the recipient at the position yields it. *)
Theorem C116_key : forall L v g index size cek,
  extract_cek L v g index size = Ok cek <-> exists r, recipient v size index r /\ yields L g r cek.
Proof. exact cek_exact. Qed.
Print Assumptions C116_key.
(** By the general function with an expected type: a password, a KEM key, any other or none. *)
Theorem C116_expected_password : forall L v g index size raw d,
  open_env L v g (AName NPwri) index size raw = Ok d
  <-> exists r p s cek m, recipient v size index (Pwri r) /\ i_pw g = Some p /\ protection_salt L (i_msg g) (i_salt g) s
        /\ pwri_yields L r s p cek /\ content_opens L (v_content v) cek raw d /\ i_msg g = Some m /\ l_verify L m p = Ok tt.
Proof. exact open_env_pwri. Qed.
Print Assumptions C116_expected_password.
Theorem C116_expected_kem : forall L v g index size raw d,
  open_env L v g AKemri index size raw = Ok d
  <-> exists k o x r cek, i_key g = Some k /\ s_kind k = KKem o /\ recipient v size index (Ori ORI_KEM x)
        /\ l_kemdec L x = Some (r, []) /\ kemri_yields L r (i_cert g) (i_pop g) false k cek
        /\ content_opens L (v_content v) cek raw d.
Proof. exact open_env_kemri. Qed.
Print Assumptions C116_expected_kem.
(** Only the type of the recipient at the position is looked at; the first recipient is used. *)
Theorem C116_expected_other : forall L v g index size raw d t,
  t <> AName NPwri -> t <> AKemri ->
  (open_env L v g t index size raw = Ok d
   <-> exists r r0 cek, recipient v size index r /\ expects t r /\ recipient v size 0 r0 /\ yields L g r0 cek
         /\ content_opens L (v_content v) cek raw d).
Proof. exact open_general. Qed.
Print Assumptions C116_expected_other.
(** The CA opens with the one of its two keys whose algorithm the recipient names. *)
Theorem C116_ca : forall L v c size index pop raw k h hc d,
  open_kemri_ca L v c size index pop raw k h hc = Ok d
  <-> exists x r o key crt cek, recipient v size index (Ori ORI_KEM x) /\ l_kemdec L x = Some (r, []) /\ km_kem r = Some o
        /\ s_kind key = KKem o
        /\ ((k = Some key /\ crt = c /\ (forall h', h = Some h' -> is_ok (kem_oid h') = true))
            \/ (h = Some key /\ crt = hc /\ (forall k', k = Some k' -> exists y, kem_oid k' = Ok y /\ y <> o)))
        /\ kemri_yields L r crt pop false key cek /\ content_opens L (v_content v) cek raw d.
Proof. exact open_ca_exact. Qed.
Print Assumptions C116_ca.
(** Unless possession of the key is proven this way, a recipient that names another certificate than the given one is refused. *)
Theorem C116_named : forall L v g index size cek r, extract_cek L v g index size = Ok cek -> i_pop g = false ->
  recipient v size index r ->
  (forall k, r = Ktri k -> exists i c, kt_rid k = Some i /\ i_cert g = Some c /\ names i c)
  /\ (forall k, r = Kari k -> exists o x e c, ka_orig k = Some o /\ ka_keys k = [{| re_rid := x; re_key := e |}]
                                           /\ i_cert g = Some c /\ originates o c /\ names x c)
  /\ (forall t x k, r = Ori t x -> l_kemdec L x = Some (k, []) -> exists i c, km_rid k = Some i /\ i_cert g = Some c /\ names i c).
Proof.
  intros L v g index size cek r H P [R1 R2]. apply cek_exact in H. destruct H as (r' & [_ Q] & Y). assert (r' = r) by congruence. subst r'.
  split; [|split].
  - intros k ->. destruct Y as (k' & _ & _ & [C | (c & i & C1 & C2 & C3)] & _); [congruence|]. exists i, c. auto.
  - intros k ->. destruct Y as (k' & peer & _ & _ & _ & o & a & x & e & kek & _ & O & _ & K & [C | (c & C1 & C2 & C3)] & _); [congruence|].
    exists o, x, e, c. auto.
  - intros t x k -> D. destruct Y as (k' & r & _ & _ & D' & i & o & ct & f & n & w & e & ss & kek & _ & I & [C | (c & C1 & C2)] & _); [congruence|].
    assert (r = k) by congruence. subst r. exists i, c. auto.
Qed.
Print Assumptions C116_named.
(** A password recipient that uses the salt of the protection is refused. *)
Theorem C116_salt : forall L v g index size cek r a par q rest s, extract_cek L v g index size = Ok cek ->
  recipient v size index (Pwri r) -> pw_kdf r = Some a -> g_par a = Some par -> l_pbkdec L par = Some (q, rest) ->
  protection_salt L (i_msg g) (i_salt g) s -> k_salt q <> Some s.
Proof.
  intros L v g index size cek r a par q rest s H [R1 R2] A PA D S C. apply cek_exact in H. destruct H as (r' & [_ Q] & Y).
  assert (r' = Pwri r) by congruence. subst r'. destruct Y as (pw & s' & _ & S' & a' & par' & salt & iter & len & prf & w & k1 & k2 & _ & A' & _ & PA' & D' & N & _).
  assert (a' = a) by congruence. subst a'. assert (par' = par) by congruence. subst par'. rewrite D' in D. injection D as <- <-. cbn [k_salt] in C.
  injection C as ->. apply N. unfold protection_salt in S, S'. destruct (i_salt g) as [z|]; [congruence|].
  destruct S as (m & b & M & B & SS), S' as (m' & b' & M' & B' & SS'). assert (m' = m) by congruence. subst. assert (b' = b) by congruence. subst. congruence.
Qed.
Print Assumptions C116_salt.

Definition kem1 := key (KKem KEM1) 41.
Definition kem2 := key (KKem KEM2) 42.
Definition rsa1 := key KRsa 51.
Definition rsa2 := key KRsa 52.
Definition ec1 := key KEc 61.
Definition ec2 := key KEc 62.
Definition pw_env := the no_env (build_env_pwri toy [3; 4] [10; 11] cek32 [8] iv16 "pbkdf2" true "").
Definition kem_env := the no_env (build_exchange toy (public_key kem1) [10; 11] None ec1 (Some (cert_for kem1 (Some [5]))) cek32 iv16 [] [6] None false None).
Definition ec_env := the no_env (build_exchange toy (public_key ec2) [10; 11] (Some ec1) ec1 (Some (cert_for ec1 None)) cek32 iv16 [1] [6] None false None).
(** Each is opened by whom it is for, and not by another. *)
Example C116_ex :
  open_pwri toy pw_env (Some [3; 4]) (Some (message [9] [3; 4] [])) None 1 0 true false = Ok [10; 11]
  /\ open_pwri toy pw_env (Some [3; 4]) (Some (message [8] [3; 4] [])) None 1 0 true true = Err EValueError
  /\ open_pwri toy pw_env (Some [3; 5]) (Some (message [9] [3; 5] [])) None 1 0 true false = Err EInvalidKeyData
  /\ open_pwri toy pw_env (Some [3; 4]) (Some (message [9] [3; 5] [])) None 1 0 true false = Err EBadMessageCheck
  /\ open_kemri toy kem_env kem1 (Some (cert_for kem1 (Some [5]))) 1 0 false false false = Ok [10; 11]
  /\ open_kemri toy kem_env kem1 (Some (cert_for kem1 (Some [6]))) 1 0 false false false = Err EValueError
  /\ open_kemri toy kem_env kem2 (Some (cert_for kem1 (Some [5]))) 1 0 false false false = Err EValueError
  /\ open_kemri_ca toy kem_env None 1 0 true false (Some kem2) (Some kem1) None = Ok [10; 11]
  /\ open_kari toy ec_env ec2 (Some (cert_for ec1 None)) false false = Ok [10; 11]
  /\ open_kari toy ec_env ec2 (Some (cert_for ec1 (Some [5]))) false false = Err EValueError
  /\ open_kari toy ec_env ec1 (Some (cert_for ec1 None)) false false = Err EInvalidKeyData.
Proof. vm_compute. repeat split; reflexivity. Qed.
Print Assumptions C116_ex.

(** The version of the EnvelopedData is not looked at, although RFC 9483 fixes it. *)
Theorem C116_version_refuted : exists L v g d, laws L /\ v_version v = 99
  /\ open_env L v g (AName NPwri) 0 1 true = Ok d /\ open_env L v g Any 0 1 true = Ok d.
Proof.
  exists toy, {| v_version := 99; v_recips := v_recips pw_env; v_content := v_content pw_env |}, (knows [3; 4] (message [9] [3; 4] [])), [10; 11].
  split; [exact toy_laws|]. split; [reflexivity|]. split; vm_compute; reflexivity.
Qed.
Print Assumptions C116_version_refuted.
(** Two recipients, the second for the given key: at its position it is refused, because the first is used. *)
Definition r1 := the no_env (build_exchange toy (public_key rsa1) [10] None ec1 (Some (cert_for rsa1 (Some [5]))) cek32 iv16 [] [6] None true None).
Definition r2 := the no_env (build_exchange toy (public_key rsa2) [10] None ec1 (Some (cert_for rsa2 (Some [6]))) cek32 iv16 [] [6] None true None).
Definition two : env := {| v_version := 2; v_recips := v_recips r1 ++ v_recips r2; v_content := v_content r1 |}.
Theorem C116_index_refuted : exists L v g r cek d, laws L /\ recipient v 2 1 r /\ yields L g r cek
  /\ content_opens L (v_content v) cek false d /\ open_env L v g Any 1 2 false = Err EValueError
  /\ extract_cek L v g 1 2 = Ok cek.
Proof.
  exists toy, two, (holder rsa2 (cert_for rsa2 (Some [6]))), (hd Kekri (v_recips r2)), cek32, [10].
  split; [exact toy_laws|]. assert (R : recipient two 2 1 (hd Kekri (v_recips r2))) by (split; vm_compute; reflexivity). split; [exact R|].
  assert (E : extract_cek toy two (holder rsa2 (cert_for rsa2 (Some [6]))) 1 2 = Ok cek32) by (vm_compute; reflexivity).
  split; [|split; [apply content_exact; vm_compute; reflexivity|]; split; [vm_compute; reflexivity | exact E]].
  apply cek_exact in E. destruct E as (r & [_ R'] & Y). destruct R as [_ R]. assert (r = hd Kekri (v_recips r2)) by congruence. now subst r.
Qed.
Print Assumptions C116_index_refuted.
(** Without an expected type, what a password opens is opened although the protection of the message is invalid. *)
Theorem C116_unverified_refuted : exists L v g m p d, laws L /\ i_msg g = Some m /\ i_pw g = Some p /\ l_verify L m p = Err EBadMessageCheck
  /\ open_env L v g Any 0 1 true = Ok d /\ open_env L v g (AName NPwri) 0 1 true = Err EBadMessageCheck.
Proof.
  exists toy, pw_env, (knows [3; 4] (message [9] [3; 5] [])), (message [9] [3; 5] []), [3; 4], [10; 11].
  split; [exact toy_laws|]. repeat split; vm_compute; reflexivity.
Qed.
Print Assumptions C116_unverified_refuted.
(** A KEM recipient whose key is derived with PBKDF2, or with HKDF and SHA-3, both of which are accepted, yields no key. *)
Theorem C116_kdf_refuted : forall L r f c k pop sun cek, km_kdf r = Some f ->
  In (g_oid f) ["1.2.840.113549.1.5.12"; "1.2.840.113549.1.9.16.3.32"; "1.2.840.113549.1.9.16.3.33"; "1.2.840.113549.1.9.16.3.34";
                "1.2.840.113549.1.9.16.3.35"] ->
  is_kdf (g_oid f) = true /\ process_kemri L r c (Some k) pop sun <> Ok cek.
Proof.
  intros L r f c k pop sun cek F I. split.
  - repeat (destruct I as [I | I]; [rewrite <- I; reflexivity|]). destruct I.
  - intro H. apply kemri_exact in H. destruct H as (i & o & ct & f' & n & w & e & ss & kek & _ & _ & _ & _ & _ & _ & _ & F' & _ & _ & _ & _ & _ & G & _).
    assert (f' = f) by congruence. subst f'. destruct G as [(h & G & _) | (b & par & s & rest & h & G & _)].
    + repeat (destruct I as [I | I]; [rewrite <- I in G; inversion G|]). destruct I.
    + rewrite G in I. destruct b; cbn in I; intuition discriminate.
Qed.
Print Assumptions C116_kdf_refuted.

(** ** C117: what is built is opened *)

(** The content, exactly when the key has an AES size and the types agree. *)
Theorem C117_content : forall L cek iv data b enc e raw d, laws L -> build_content L cek iv data b enc = Ok e ->
  (content_opens L e cek raw d
   <-> d = data /\ aes_key cek
       /\ (if b then match enc with Some x => x | None => SIGNED end else DATA) = (if raw then DATA else SIGNED)).
Proof. exact content_round. Qed.
Print Assumptions C117_content.
(** A password recipient, exactly with version 3, PBKDF2, 32 bytes and another salt than that of the protection. *)
Theorem C117_password : forall L pw cek o r s cek', laws L -> build_pwri L pw cek o = Ok r -> po_bad o = false ->
  (pwri_yields L r s pw cek'
   <-> cek' = cek /\ po_version o = 3 /\ po_kdf o = "pbkdf2" /\ po_nokdf o = false /\ po_len o = 32 /\ po_salt o <> s).
Proof. exact pwri_round. Qed.
Print Assumptions C117_password.
Theorem C117_password_env : forall L pw data cek salt iv kdf (raw : bool) o v g (raw' : bool) d, laws L ->
  build_env_pwri L pw data cek salt iv kdf raw o = Ok v -> i_pw g = Some pw ->
  (open_env L v g (AName NPwri) 0 1 raw' = Ok d
   <-> d = data /\ aes_key cek /\ (if raw then DATA else o) = (if raw' then DATA else SIGNED)
       /\ (exists s, protection_salt L (i_msg g) (i_salt g) s /\ s <> salt)
       /\ exists m, i_msg g = Some m /\ l_verify L m pw = Ok tt).
Proof. exact env_pwri_round. Qed.
Print Assumptions C117_password_env.
(** A key transport recipient, exactly when it names the certificate. *)
Theorem C117_transport : forall L k c cek coins oaep isn r kt c' pop cek', laws L ->
  build_ktri L (public_key k) c cek coins oaep isn r = Ok kt ->
  (ktri_yields L kt c' pop k cek'
   <-> cek' = cek /\ (pop = true \/ exists i x, kt_rid kt = Some i /\ c' = Some x /\ names i x)).
Proof. exact ktri_round. Qed.
Print Assumptions C117_transport.
(** A key agreement recipient, with a scheme the recipient reads, exactly when both its parts name the certificate. *)
Theorem C117_agreement : forall L k sk eph c cek ukm o isn og r ka peer, laws L ->
  build_kari L (public_key k) sk eph c cek ukm o isn og r = Ok ka ->
  plain_scheme (s_kind k) o -> ecdh_kind (s_kind k) = true -> ecdh_kind (s_kind sk) = true -> (ko_mqv o = true -> s_kind eph = KEc) ->
  l_load L (c_spki peer) = Ok (public_key sk) ->
  forall c' pop,
  (kari_yields L ka c' pop k peer cek
   <-> pop = true \/ exists x y z e, c' = Some x /\ ka_orig ka = Some y /\ originates y x
                                   /\ ka_keys ka = [{| re_rid := z; re_key := e |}] /\ names z x).
Proof. exact kari_round. Qed.
Print Assumptions C117_agreement.
(** A KEM recipient, exactly with version 0, the algorithm of the key, a fitting length, and not with PBKDF2. *)
Theorem C117_kem : forall L k x c cek coins o isn ski bad r km, laws L -> s_kind k = KKem x ->
  build_kemri L (Some (public_key k)) c cek coins o isn ski bad r = Ok km -> eo_ct o = None ->
  forall c' pop cek',
  (kemri_yields L km c' pop false k cek'
   <-> cek' = cek /\ eo_version o = 0 /\ (eo_oid o = None \/ eo_oid o = Some x) /\ kek_fits o
       /\ String.eqb (substring 0 6 (eo_kdf o)) "pbkdf2" = false
       /\ (pop = true \/ exists i y, c' = Some y /\ km_rid km = Some i /\ names i y)).
Proof. exact kemri_round. Qed.
Print Assumptions C117_kem.
(** What is built for a key of any kind with the defaults is opened by its holder. *)
Theorem C117_exchange : forall L k sk eph c cek iv ukm coins use_oaep data enc v g (raw : bool), laws L ->
  build_exchange L (public_key k) data (Some sk) eph (Some c) cek iv ukm coins None use_oaep enc = Ok v ->
  (ecdh_kind (s_kind k) = true -> peer_of L g k c /\ l_load L (c_spki c) = Ok (public_key sk)) ->
  i_key g = Some k -> i_cert g = Some c -> aes_key cek ->
  match enc with Some x => x | None => SIGNED end = (if raw then DATA else SIGNED) ->
  open_env L v g Any 0 1 raw = Ok data.
Proof. exact exchange_round. Qed.
Print Assumptions C117_exchange.

(** The recipients are built as asked for: how they are named, the padding, the scheme of the agreement, the derivation. *)
Theorem C117_named : forall c isn ski i, recipient_id c isn ski false = Ok i <-> EnvlSpec.named c isn ski i.
Proof. exact recipient_iff. Qed.
Print Assumptions C117_named.
Theorem C117_transport_form : forall L p c cek coins oaep isn r kt, build_ktri L p c cek coins oaep isn r = Ok kt ->
  p_kind p = KRsa /\ kt_version kt = 2
  /\ (exists a, kt_alg kt = Some a /\ transport_alg L oaep a)
  /\ exists i, kt_rid kt = Some i /\ match r with Some j => i = j | None => EnvlSpec.named c isn None i end.
Proof. exact transport_form. Qed.
Print Assumptions C117_transport_form.
Theorem C117_agreement_form : forall L p k eph c cek ukm o isn og r ka, build_kari L p k eph c cek ukm o isn og r = Ok ka ->
  (isn <> None \/ c <> None) /\ ka_version ka = Some 3
  /\ (exists a, ka_alg ka = Some a /\ agreement_oid p o (g_oid a)
                /\ g_par a = Some (l_algenc L {| g_oid := ko_wrap o; g_par := None |}))
  /\ (ko_mqv o = false -> ka_ukm ka = Some ukm)
  /\ (forall g, og = Some g -> ka_orig ka = Some g)
  /\ (forall i n, og = None -> isn = Some (i, n) -> ka_orig ka = Some (OrigIsn i n))
  /\ forall i, r = Some i -> exists e, ka_keys ka = [{| re_rid := i; re_key := e |}].
Proof. exact agreement_form. Qed.
Print Assumptions C117_agreement_form.
Theorem C117_kem_form : forall L p c cek coins o isn ski r km, build_kemri L p c cek coins o isn ski false r = Ok km ->
  km_version km = Some (eo_version o) /\ km_ukm km = eo_ukm o
  /\ (exists a, km_kdf km = Some a /\ kdf_asked L o a)
  /\ (exists i, km_rid km = Some i /\ match r with Some j => i = j | None => EnvlSpec.named c isn ski i end)
  /\ (forall x, eo_oid o = Some x -> km_kem km = Some x) /\ (forall t, eo_ct o = Some t -> km_ct km = Some t).
Proof. exact kem_form. Qed.
Print Assumptions C117_kem_form.
Theorem C117_kem_cert : forall L c q cek coins o isn ski bad r, l_load L (c_spki c) = Ok q ->
  build_kemri L None (Some c) cek coins o isn ski bad r = build_kemri L (Some q) (Some c) cek coins o isn ski bad r.
Proof. exact kem_cert. Qed.
Print Assumptions C117_kem_cert.
Theorem C117_exchange_form : forall L p data k eph c cek iv ukm coins isn oaep enc v,
  build_exchange L p data k eph c cek iv ukm coins isn oaep enc = Ok v ->
  v_version v = 2
  /\ match p_kind p with
     | KRsa => exists r a, v_recips v = [Ktri r] /\ kt_alg r = Some a /\ transport_alg L oaep a
     | KEc | KX25519 | KX448 => exists r, v_recips v = [Kari r]
     | KKem x => exists r, v_recips v = [Ori "1.2.840.113549.1.9.16.13.3" (l_kemenc L r)] /\ km_kem r = Some x
     | KOther => False
     end.
Proof. exact exchange_form. Qed.
Print Assumptions C117_exchange_form.

Definition exchanged (k : priv) (c : cert) (oaep : bool) : result env :=
  build_exchange toy (public_key k) [10; 11] (Some ec1) ec1 (Some c) cek32 iv16 [1] [6; 6] None oaep (Some DATA).
Definition reopened (k : priv) (c : cert) (oaep : bool) : result bytes :=
  let! v := exchanged k c oaep in open_env toy v (holder k c) Any 0 1 true.
Example C117_ex :
  reopened rsa1 (cert_for rsa1 (Some [5])) true = Ok [10; 11] /\ reopened rsa1 (cert_for rsa1 None) false = Ok [10; 11]
  /\ reopened ec2 (cert_for ec1 None) false = Ok [10; 11] /\ reopened kem1 (cert_for kem1 (Some [5])) false = Ok [10; 11]
  /\ (exists r, build_pwri toy [3; 4] cek32 {| po_version := 3; po_kdf := "pbkdf2"; po_salt := [8]; po_iter := 10; po_len := 32;
                                              po_hash := "sha512"; po_bad := false; po_nokdf := false |} = Ok r)
  /\ (exists r, build_kari toy (public_key ec2) ec1 (key KEc 63) (Some (cert_for ec1 None)) cek32 [1]
                  {| ko_hash := "sha384"; ko_cof := true; ko_mqv := true; ko_oid := None; ko_wrap := WRAP128 |} None None None = Ok r)
  /\ (exists r, build_kemri toy (Some (public_key kem1)) None cek32 [6]
                  {| eo_version := 0; eo_kdf := "kdf3"; eo_hash := "sha256"; eo_salt := []; eo_ukm := Some [2]; eo_wrap := "aes192_wrap";
                     eo_kek := Some 24; eo_oid := None; eo_ct := None; eo_ss := None |} None (Some [5]) false None = Ok r).
Proof.
  do 4 (split; [vm_compute; reflexivity|]). split; [|split].
  - eexists. reflexivity.
  - eexists. reflexivity.
  - eexists. reflexivity.
Qed.
Print Assumptions C117_ex.

(** The key derivation asked for is ignored: "hkdf" is built with PBKDF2. *)
Theorem C117_kdf_refuted : forall L pw data cek salt iv kdf raw o,
  build_env_pwri L pw data cek salt iv kdf raw o = build_env_pwri L pw data cek salt iv "pbkdf2" raw o.
Proof. reflexivity. Qed.
Print Assumptions C117_kdf_refuted.
(** A password recipient built with HKDF does not depend on the password, and no password opens it. *)
Theorem C117_hkdf_refuted : (forall L pw pw' cek o, po_kdf o = "hkdf" -> build_pwri L pw cek o = build_pwri L pw' cek o)
  /\ (forall L pw cek o r pw' s cek', po_kdf o = "hkdf" -> build_pwri L pw cek o = Ok r -> ~ pwri_yields L r s pw' cek')
  /\ exists L pw cek o r, laws L /\ po_kdf o = "hkdf" /\ build_pwri L pw cek o = Ok r.
Proof.
  split; [intros L pw pw' cek o K; unfold build_pwri; rewrite K; reflexivity|]. split.
  - intros L pw cek o r pw' s cek' K H Y. unfold build_pwri in H. rewrite K in H. cbn [String.eqb Ascii.eqb Bool.eqb] in H.
    apply bind_inv in H. destruct H as ([a k] & A & H). apply bind_inv in H. destruct H as (k' & _ & H). injection H as <-.
    destruct (find_oid ("hkdf-" ++ po_hash o)%string hkdf_table) as [x|] eqn:F; [|discriminate A].
    apply hkdf_not_pbkdf2 in F. apply bind_inv in A. destruct A as (kk & _ & A). apply bind_inv in A. destruct A as (w & _ & A). injection A as <- <-.
    destruct Y as (a & par & salt & iter & len & prf & w' & key & k0 & _ & Y & O & _). cbn [pw_kdf] in Y.
    destruct (po_nokdf o); [discriminate Y|]. injection Y as <-. now apply F.
  - exists toy, [3; 4], cek32, {| po_version := 3; po_kdf := "hkdf"; po_salt := [8]; po_iter := 10; po_len := 32; po_hash := "sha256"; po_bad := false; po_nokdf := false |}.
    eexists. split; [exact toy_laws|]. split; reflexivity.
Qed.
Print Assumptions C117_hkdf_refuted.
(** Another scheme with an X25519 key: the recipient assumes SHA-256 and has another key. *)
Theorem C117_scheme_refuted : exists L k sk c ka, laws L /\ s_kind k = KX25519
  /\ build_kari L (public_key k) sk sk (Some c) cek32 [1]
       {| ko_hash := "sha512"; ko_cof := false; ko_mqv := false; ko_oid := None; ko_wrap := WRAP256 |} None None None = Ok ka
  /\ l_load L (c_spki c) = Ok (public_key sk)
  /\ extract_kari L ka (Some c) k false (Some c) = Err EInvalidKeyData.
Proof.
  exists toy, (key KX25519 71), (key KX25519 72), (cert_for (key KX25519 72) None).
  eexists. split; [exact toy_laws|]. split; [reflexivity|]. split; [reflexivity|]. split; vm_compute; reflexivity.
Qed.
Print Assumptions C117_scheme_refuted.
(** Named by issuer and serial number, a certificate with a subject key identifier: the recipient of the key agreement is named
    by the identifier, its originator not, and it is refused. *)
Theorem C117_mixed_refuted : exists L k sk c ka, laws L
  /\ build_kari L (public_key k) sk sk (Some c) cek32 [1] kari_defaults (Some (isn_of c)) None None = Ok ka
  /\ ka_orig ka = Some (OrigIsn (c_issuer c) (c_serial c))
  /\ (exists s e, c_ski c = Some s /\ ka_keys ka = [{| re_rid := RidSki s; re_key := e |}])
  /\ extract_kari L ka (Some c) k false (Some c) = Err EValueError.
Proof.
  exists toy, ec2, ec1, (cert_for ec1 (Some [5])). eexists. split; [exact toy_laws|]. split; [reflexivity|]. split; [reflexivity|].
  split; [|vm_compute; reflexivity]. eexists _, _. split; reflexivity.
Qed.
Print Assumptions C117_mixed_refuted.
(** A ciphertext given without its shared secret is sent with the key of another one. *)
Theorem C117_ciphertext_refuted : exists L k c km, laws L
  /\ build_kemri L (Some (public_key k)) (Some c) cek32 [6]
       {| eo_version := 0; eo_kdf := "hkdf"; eo_hash := "sha256"; eo_salt := []; eo_ukm := None; eo_wrap := "aes256_wrap"; eo_kek := None;
          eo_oid := None; eo_ct := Some (seal [41] [7]); eo_ss := None |} None None false None = Ok km
  /\ is_ok (l_decaps L k (seal [41] [7]) 32) = true
  /\ process_kemri L km (Some c) (Some k) false false = Err EInvalidKeyData.
Proof.
  exists toy, kem1, (cert_for kem1 (Some [5])). eexists. split; [exact toy_laws|]. split; [reflexivity|]. split; vm_compute; reflexivity.
Qed.
Print Assumptions C117_ciphertext_refuted.
