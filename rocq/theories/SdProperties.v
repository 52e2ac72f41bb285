(** The properties of signature algorithms (C118) and of SignedData (C119), see properties.jsonl. *)
From Coq Require Import String Ascii.
From Verif Require Import Prelude PyStr ProtTab CertChainModel CertChainSpec BitModel SdModel SdSpec SdAlgs SdProofs SdBuild SdToy.
Open Scope string_scope.
Open Scope Z_scope.
Open Scope list_scope.

Definition a (o : string) : alg := {| g_oid := o; g_par := None |}.

(** ** C118: algorithms *)

(** The check answers for every two algorithms, and yes exactly if the signature algorithm is one of the key. *)
Theorem C118_answers : forall p k, exists b, alg_fits p k = Ok b.
Proof. exact alg_fits_total. Qed.
Print Assumptions C118_answers.
Theorem C118_exact : forall p k, alg_fits p k = Ok true <-> fits p k.
Proof. exact alg_fits_iff. Qed.
Print Assumptions C118_exact.
(** Which algorithms are signature algorithms, with their hash functions. *)
Theorem C118_hashes : forall o h, (is_signature_alg o = Ok tt /\ digest_hash o = Ok h) <-> In (o, h) sig_hashes.
Proof. exact sig_hash_iff. Qed.
Print Assumptions C118_hashes.
Example C118_ex :
  fits (a "ecdsa_with_SHA384") (a "id_ecPublicKey") /\ fits (a "id_RSASSA_PSS") (a "rsaEncryption")
  /\ fits (a "pq:ml-dsa-65-sha512") (a "pq:ml-dsa-65") /\ ~ fits (a "pq:ml-dsa-65") (a "pq:ml-dsa-87")
  /\ fits (a "comp:composite-sig-ml-dsa-44-rsa2048-pss") (a "comp:composite-sig-ml-dsa-44-rsa2048")
  /\ ~ fits (a "ecdsa_with_SHA256") (a "rsaEncryption") /\ ~ fits (a "sha256WithRSAEncryption") (a "id_RSASSA_PSS")
  /\ fits {| g_oid := "id_RSASSA_PSS"; g_par := Some [1] |} {| g_oid := "id_RSASSA_PSS"; g_par := Some [1] |}
  /\ ~ fits {| g_oid := "id_RSASSA_PSS"; g_par := Some [1] |} {| g_oid := "id_RSASSA_PSS"; g_par := Some [2] |}.
Proof. repeat split; try (apply alg_fits_iff; vm_compute; reflexivity); (intros H; apply alg_fits_iff in H; vm_compute in H; discriminate H). Qed.
Print Assumptions C118_ex.
(** "The algorithm conforms to the key" fails: Ed448 is accepted for an Ed25519 key
    and the SHA-3 variants of ECDSA are refused although those of RSA are accepted. *)
Theorem C118_eddsa_refuted : exists p k, g_oid p <> g_oid k /\ In (g_oid p) eddsa /\ In (g_oid k) eddsa /\ alg_fits p k = Ok true.
Proof. exists (a "id_Ed448"), (a "id_Ed25519"). split; [discriminate|]. split; [right; left; reflexivity|]. split; [left; reflexivity|vm_compute; reflexivity]. Qed.
Print Assumptions C118_eddsa_refuted.
Theorem C118_sha3_refuted : forall p, In (g_oid p) (map fst ECDSA_SHA3_OID_2_NAME) -> alg_fits p (a "id_ecPublicKey") = Ok false
  /\ exists q, In (g_oid q) (map fst RSA_SHA3_OID_2_NAME) /\ alg_fits q (a "rsaEncryption") = Ok true.
Proof.
  intros [o x] H. cbn [g_oid] in *. split.
  - repeat destruct H as [<-|H]; try (vm_compute; reflexivity). destruct H.
  - exists (a "id_rsassa_pkcs1_v1_5_with_sha3_256"). split; [right; left; reflexivity|vm_compute; reflexivity].
Qed.
Print Assumptions C118_sha3_refuted.

(** ** C119: SignedData *)

(** A SignedData is accepted, and the key returned, exactly under the conditions of the specification. *)
Theorem C119_exact : forall L d n i dir os save k, validate_signed L d n i dir os save = Ok k <-> accepted L d n i dir os save k.
Proof. exact validate_iff. Qed.
Print Assumptions C119_exact.
(** Every certificate of the ordered chain is signed by the next one. *)
Theorem C119_chain : forall L l certs, ordered L l certs -> consecutive (signed_by (l_chain L)) certs.
Proof. exact chain_signed. Qed.
Print Assumptions C119_chain.
(** What is built for one key by a certified signer is accepted and yields the key. *)
Theorem C119_built : forall L k c w dig cs k1 h o one sg dir os certs,
  sd_laws L -> asked L k w h -> (dig = None \/ dig = Some "" \/ dig = Some h) -> certified L k c o h ->
  ordered L (map ChCert cs) certs -> hd_error certs = Some c -> chain_trusted L certs dir os ->
  l_one L k1 "raw" = Ok one ->
  l_sign L k (l_encapenc L {| n_type := "id_ct_KP_aKeyPackage"; n_content := Some (l_pkgenc L [one]) |}) h = Ok sg ->
  exists d, build_signed L k c w None dig false (Some cs) (Some [k1]) None = Ok d /\ validate_signed L d 1 0 dir os None = Ok k1.
Proof. exact built_signed. Qed.
Print Assumptions C119_built.
(** What is built is refused if the certificate has no subject key identifier, if the digest is made by another hash than the
    signature, if there is not one key, or if the signature was spoiled and does not verify. *)
Theorem C119_built_ski : forall L k c w content dig bad chain keys d n i dir os save key,
  build_signed L k c w content dig bad chain keys None = Ok d -> validate_signed L d n i dir os save = Ok key -> exists x, l_ski L c = Some x.
Proof. exact built_no_ski. Qed.
Print Assumptions C119_built_ski.
Theorem C119_built_digest : forall L k c w content dig bad chain keys d n i dir os save key so h,
  build_signed L k c w content dig bad chain keys None = Ok d -> validate_signed L d n i dir os save = Ok key ->
  forall sh, asked L k w sh -> l_sigoid L k sh = Ok so -> In (so, h) sig_hashes ->
  exists do, sha_alg_name_to_oid (or_name dig sh) = Ok do /\ hash_id do h.
Proof. exact built_digest. Qed.
Print Assumptions C119_built_digest.
(** The signed attributes of what is built: the digest is that of the content, by the hash named. *)
Theorem C119_built_attributes : forall L k c w content dig bad chain keys d, build_signed L k c w content dig bad chain keys None = Ok d ->
  exists sh e n, asked L k w sh /\ n_content (d_encap d) = Some e /\ hash_named (or_name dig sh) n
    /\ map s_attrs (d_signers d) = [[{| t_type := "id_contentType"; t_vals := [l_oidenc L "id_ct_KP_aKeyPackage"] |};
                                     {| t_type := "id_messageDigest"; t_vals := [l_octenc L (l_hash L n e)] |}]].
Proof. exact built_attributes. Qed.
Print Assumptions C119_built_attributes.
(** What is built besides the signers: the certificates given, or that of the signer alone; the algorithms named; the content. *)
Theorem C119_built_frame : forall L k c w content dig bad chain keys infos d, build_signed L k c w content dig bad chain keys infos = Ok d ->
  d_version d = 3 /\ d_certs d = map ChCert (match chain with Some cs => cs | None => [c] end)
  /\ n_type (d_encap d) = "id_ct_KP_aKeyPackage"
  /\ (keys = None -> n_content (d_encap d) = content)
  /\ (forall is, infos = Some is -> d_signers d = is)
  /\ exists sh, asked L k w sh /\ Forall2 (fun n g => sha_alg_name_to_oid (strip is_space n) = Ok (g_oid g) /\ g_par g = None)
                                  (split ","%char (or_name dig sh)) (d_digests d).
Proof. exact built_frame. Qed.
Print Assumptions C119_built_frame.
(** Nothing is built of no content and no keys. *)
Theorem C119_built_nothing : forall L k c w dig bad chain infos, build_signed L k c w None dig bad chain None infos = Err EValueError.
Proof. exact built_nothing. Qed.
Print Assumptions C119_built_nothing.
Theorem C119_built_bad : forall L k c w content dig chain keys d n i dir os save key,
  build_signed L k c w content dig true chain keys None = Ok d -> validate_signed L d n i dir os save = Ok key ->
  exists sh sg x h, asked L k w sh /\ l_sign L k (l_encapenc L (d_encap d)) sh = Ok sg
    /\ l_verify L x (l_encapenc L (d_encap d)) (sg ++ [65; 65]) (Some h) = Ok tt.
Proof. exact built_bad. Qed.
Print Assumptions C119_built_bad.
(** "What prepare_signed_data builds for several keys is accepted" fails for any number but one, whatever is expected. *)
Theorem C119_keys_refuted : forall L k c w content dig bad chain ks d n i dir os save key, sd_laws L ->
  build_signed L k c w content dig bad chain (Some ks) None = Ok d ->
  validate_signed L d n i dir os save = Ok key -> List.length ks = 1%nat.
Proof. exact built_one. Qed.
Print Assumptions C119_keys_refuted.
(** "The signature covers the signed attributes" fails: they can be replaced by any others with the same digest. *)
Theorem C119_attributes_refuted : forall L d n i dir os save k l, accepted L d n i dir os save k ->
  forall md, attributes_give L n l md -> (exists info more, d_signers d = info :: more /\ attributes_give L n (s_attrs info) md) ->
  validate_signed L (with_attrs d l) n i dir os save = Ok k.
Proof. intros L d n i dir os save k l H md H1 H2. apply validate_iff. exact (attrs_free _ _ _ _ _ _ _ _ _ H md H1 H2). Qed.
Print Assumptions C119_attributes_refuted.
(** "The signer identifier names the certificate" fails: any subject key identifier is accepted. *)
Theorem C119_signer_refuted : forall L d n i dir os save k x, accepted L d n i dir os save k ->
  validate_signed L (with_ski d x) n i dir os save = Ok k.
Proof. intros. apply validate_iff, ski_free. assumption. Qed.
Print Assumptions C119_signer_refuted.
(** "Every signer info is checked" fails: only the first is, even for the key at another position. *)
Theorem C119_signers_refuted : forall L d n i dir os save k r, accepted L d n i dir os save k -> S (List.length r) = n ->
  validate_signed L (with_more d r) n i dir os save = Ok k.
Proof. intros. apply validate_iff, more_free; assumption. Qed.
Print Assumptions C119_signers_refuted.
(** "A wrong message digest is reported by a ValueError" fails: it is an AttributeError. *)
Theorem C119_digest_refuted : forall L d n i dir os save k l md content, accepted L d n i dir os save k ->
  d_encap d = {| n_type := "id_ct_KP_aKeyPackage"; n_content := Some content |} -> attributes_give L n l md ->
  (forall h, md <> l_hash L h content) -> validate_signed L (with_attrs d l) n i dir os save = Err EAttribute.
Proof. exact digest_error. Qed.
Print Assumptions C119_digest_refuted.

Definition ee := mk 1 0 1 1 2.
Definition ca := mk 2 0 0 1 3.
Definition root := mk 3 0 0 1 3.
Definition kee := toy_key 1 0.
Definition new_key := toy_key 9 2.
Definition nothing : signed := {| d_version := 0; d_digests := []; d_encap := encapsulate [] true; d_certs := []; d_signers := [] |}.
Definition sd (w dig : option string) (cs : list cert) (keys : list key) : signed :=
  EnvlToy.the nothing (build_signed toy kee ee w None dig false (Some cs) (Some keys) None).
Definition good_sd := sd (Some "sha256") None [ee; ca; root] [new_key].
Definition bad_attrs : list attr := signed_attrs toy [1; 2; 3].
Definition more_attrs : list attr :=
  {| t_type := "id_signingTime"; t_vals := [[1]] |} :: s_attrs (hd {| s_version := 0; s_sid := SidSki []; s_digest := a ""; s_attrs := []; s_alg := a ""; s_sig := None |} (d_signers good_sd)).
Example C119_ex :
  validate_signed toy good_sd 1 0 [root] [] None = Ok new_key
  /\ validate_signed toy (sd None (Some "sha256") [root; ca; ee] [new_key]) 1 0 [] [root] (Some "raw") = Ok new_key
  /\ validate_signed toy (sd None None [ca; ee; root] [new_key]) 1 0 [] [root] None = Err EValueError
  /\ validate_signed toy good_sd 1 0 [ca] [] None = Err ESignerNotTrusted
  /\ validate_signed toy good_sd 2 0 [root] [] None = Err EValueError
  /\ validate_signed toy good_sd 1 1 [root] [] None = Err EIndexError
  /\ validate_signed toy (sd (Some "sha256") (Some "sha384") [ee; ca; root] [new_key]) 1 0 [root] [] None = Err EValueError
  /\ validate_signed toy (sd None None [ee; ca; root] [new_key; kee]) 1 0 [root] [] None = Err EValueError
  /\ validate_signed toy (with_attrs good_sd more_attrs) 1 0 [root] [] None = Ok new_key
  /\ validate_signed toy (with_attrs good_sd bad_attrs) 1 0 [root] [] None = Err EAttribute
  /\ validate_signed toy (with_ski good_sd [7; 7]) 1 0 [root] [] None = Ok new_key
  /\ validate_signed toy (EnvlToy.the nothing (build_signed toy kee (mk 1 0 0 1 3) None None None false (Some [mk 1 0 0 1 3; root]) (Some [new_key]) None))
       1 0 [root] [] None = Err EValueError
  /\ validate_signed toy (EnvlToy.the nothing (build_signed toy kee ee None None None true (Some [ee; ca; root]) (Some [new_key]) None))
       1 0 [root] [] None = Err EInvalidSignature.
Proof. vm_compute. repeat split; reflexivity. Qed.
Print Assumptions C119_ex.
(** The hypotheses of the round trip are met, by an EC key and by an Ed25519 key. *)
Example C119_built_ex :
  sd_laws toy /\ asked toy kee None "sha256" /\ certified toy kee ee "ecdsa_with_SHA256" "sha256"
  /\ certified toy (toy_key 1 1) (mk 1 1 1 1 2) "id_Ed25519" "sha512"
  /\ ordered toy (map ChCert [ee; ca; root]) [ee; ca; root] /\ chain_trusted toy [ee; ca; root] [root] []
  /\ (exists one, l_one toy new_key "raw" = Ok one).
Proof.
  split; [exact toy_sd_laws|]. split; [right; split; reflexivity|]. split; [|split; [|split; [|split]]].
  - split; [reflexivity|]. split; [apply sig_hash_iff; split; vm_compute; reflexivity|]. split; [apply alg_fits_iff; vm_compute; reflexivity|].
    split; [exists [1]; reflexivity|]. split; [exists [CM_KGA]; split; reflexivity|]. intros data s H. apply (toy_verifies 1 0 1 1 2) in H. destruct H as [H _]. split; [exact H|].
    intros [C|[C|[]]]; discriminate C.
  - split; [reflexivity|]. split; [apply sig_hash_iff; split; vm_compute; reflexivity|]. split; [apply alg_fits_iff; vm_compute; reflexivity|].
    split; [exists [1]; reflexivity|]. split; [exists [CM_KGA]; split; reflexivity|]. intros data s H. apply (toy_verifies 1 1 1 1 2) in H. destruct H as [H1 H2]. split; [exact H1|].
    intros _. apply H2. discriminate.
  - apply SdProofs.ordered_iff. vm_compute. reflexivity.
  - split; [exists ee, [ca; root], root; split; [reflexivity|split; [left; reflexivity|reflexivity]]|]. right. split; [|reflexivity].
    intros c H C. apply pq_cert_iff in C. destruct H as [<-|[<-|[<-|[]]]]; vm_compute in C; discriminate C.
  - eexists. reflexivity.
Qed.
Print Assumptions C119_built_ex.
(** A post-quantum chain, and several signers of which only the first counts. *)
Definition pq_ee := mk 1 2 1 1 3.
Definition two_sd : signed :=
  let d := EnvlToy.the nothing (build_signed toy (toy_key 1 2) pq_ee None None None false (Some [pq_ee; root]) (Some [new_key; kee]) None) in
  let i := {| s_version := 3; s_sid := SidSki []; s_digest := a "id_sha512"; s_alg := a "pq:ml-dsa-44";
              s_sig := Some (toy_sig 1 2 (l_encapenc toy (d_encap d)) None);
              s_attrs := [{| t_type := "id_contentType"; t_vals := [l_oidenc toy "id_ct_KP_aKeyPackage"] |};
                          {| t_type := "id_messageDigest"; t_vals := [l_octenc toy (l_hash toy "sha512" (EnvlToy.the [] (match n_content (d_encap d) with Some x => Ok x | None => Err EKeyError end))); []] |}] |} in
  {| d_version := 3; d_digests := [a "id_sha512"; a "id_sha512"]; d_encap := d_encap d; d_certs := d_certs d; d_signers := [i; i] |}.
Example C119_two_ex : validate_signed toy two_sd 2 1 [root] [] None = Ok kee /\ validate_signed toy two_sd 2 0 [root] [] None = Ok new_key
  /\ accepted toy two_sd 2 1 [root] [] None kee.
Proof. split; [vm_compute; reflexivity|]. split; [vm_compute; reflexivity|]. apply validate_iff. vm_compute. reflexivity. Qed.
Print Assumptions C119_two_ex.
