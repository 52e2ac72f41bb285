## 6. Findings

Deviations from the stated or evidently intended behaviour that the faithful
model makes provable.  Names in parentheses are theorems.  Findings without a
theorem were seen while reading and are not claimed.

**Mock CA**
* A key update is accepted for a revoked certificate, which ends its revoked state (C02 refutation).
* The OCSP responder raises for a certificate that is only updated (C05); the CRL number of the certificate database never increases (C06).
* A certConf with status `rejection` confirms the certificate, without a hash comparison (C15).
* A KEM shared secret is marked used also when the request is rejected; an `rr` may use a spent secret; an exchange answered by a challenge does not spend it (C12).
* The stateful-signature index is bookkept by certificate instead of key; it is not checked for `rr` nor for certConf in a batch (C14).
* Certificates obtained through a challenge are not recorded and their transaction id is not reserved (C11, C47).
* The signer of a message inside a nested message is not checked for revocation (C16).
* `rr` has no ownership check; signing the response happens outside the error handling, so the client sees HTTP 500 after the state changed (C17).
* A refused batch keeps the effects of the earlier messages (C18) and its error message may carry the ids of an inner message (C19).
* Only keys that are present in all templates are compared (C09); a traditional key inside a hybrid is not compared with a PQ component (C10).

**FIPS algorithms**
* `hash_slh_sign` calls the internal signer with swapped arguments, and the pre-hash names differ in case between signing and verification (C36).
* ML-DSA verification ignores bytes after the signature (C50) and raises IndexError for short ones; ML-KEM decapsulation raises IndexError for short ciphertexts (C27).
* ML-KEM does not apply the FIPS 203 modulus check to encapsulation keys.

**Key objects**
* `PQKeyFactory.from_private_bytes` cuts its input to the expanded-key length (C57).
* A version-0 structure with public key is written but refused on loading; seeds that look like DER are refused; `must_be_version_2` has no effect; the export check refuses keys it should accept (C58).
* The comparison of seed and expanded key is vacuous for ML-KEM and for the `both` form (C59).
* An empty public key in the private-key structure is not checked and replaces the key's own (C60).
* ML-DSA signing ignores an unsupported hash algorithm while verification raises (C62).
* Private-key equality is type equality; public-key equality ignores the parameter set; pre-hash ML-DSA OIDs cannot be loaded as private keys.

**Composite signatures**
* RSA keys of unlisted sizes sign but never verify; ML-DSA-87 with RSA always fails with the default padding; the default exported OID differs from the one signed with by default (C41).
* The RSA public-key size is not compared with the OID on loading; `raw` export cannot be read; `seed_and_raw` export raises (C75).

**Key encapsulation**
* DHKEM uses the RFC 9180 identifiers of the NIST curves for brainpool curves, and hashes the received encoding of the point; an explicit random value above the modulus makes the two sides of RSA-KEM disagree (C76).
* X-Wing decapsulation ignores bytes after the ciphertext; composite encaps and decaps use SHA3-256 for every combination unless use_in_cms=False is passed; the AES and SHAKE variants of FrodoKEM share a Chempat context; private composite keys round the RSA size in their identifier, public ones do not (C40).
* A Chempat private key with a public key takes over any post-quantum public key, because it is assigned before the comparison; Chempat writes the private number of an EC key with as many bytes as the curve has bits; raw and seed_and_raw exports of composite KEM keys are not read back; X-Wing keys made from 96 bytes lose their seed, and their combined export is not read back (C77).

**Client-side checks**
* With a request, the message-time check is one-sided (C63); only the first generalInfo entry of a type is looked at, and the CA-side profile count is reversed (C64).
* The commonName requirement for MAC-protected senders is never enforced, because the textual form of an empty name is not absent (C65).
* Nested responses are checked by body name, so two requests of a type are confused (C68).
* The certificate-chain order check advances its index wrongly (C72), and its verdict is only logged by `validate_extra_certs` (C73).
* A chain of one certificate is accepted without key-usage check; `trustanchors=None` trusts nothing (C74).
* `must_be_self_signed` compares names only; cyclic pools give repetitions; an unreadable key aborts chain building (C46).
* FrodoKEM keys without liboqs: from_private_bytes accepts data of any length; the object then fails with an AssertionError on use (C39_load_length_refuted).

**Stateful signatures**
* `enforce_lw=True` switches the uniformity rules for HSS levels off (C42); keys repeat the root's parameters for every level, so the rules can never fail for a key object, and `sig_size` and the index are wrong for trees of different heights.
* `manipulate_pq_stateful_signature_bytes` writes the index little-endian, all readers are big-endian: index 1 reads back as 2^24, and the "out of range" default of HSS trees of height 20 and 25 reads back as leaf 4096 and 2 (C78).
* `modify_pq_stateful_sig_private_key` moves the root tree of an HSS key instead of the lowest one; `used_index` always fails for HSS; `last_index=True` alone exhausts the key (C79).
* XMSS^MT keys with 192-bit hashes or SHAKE256 are listed and approved but cannot be loaded: KeyError (C80). `HSSPublicKey.from_public_bytes` lets the parser's ValueError through.

**Bit strings, key usage, status**
* `is_bit_set(.., "badAlg, badTime", exclusive=True)` depends on the blank after the comma; the documented "1, 9" is a ValueError; an exclusive list passes with one bit of the list (C81).
* `must_not_contain_key_usage` lets certificates through that have some, but not all, of the forbidden usages (C83).
* `validate_cmp_extended_key_usage` refuses its own documented default form "cmcCA, cmcRA" (C84).
* `verify_pkistatusinfo` tolerates a wrong failInfo by default; `check_rp_cmp_message_body` asks for the status "rejected", which does not exist, so rejected revocations never pass (C85).
* `asn1_compare_named_values` compares positions, not values: removeFromCRL(8) is taken for privilegeWithdrawn; with `exclusive=False` it is always false (C85).
* `check_logic_extensions(for_ee=..)` is reversed: CA templates with keyCertSign are refused, end-entity templates pass (C86).
* `validate_migration_certificate_key_usage` refuses every signature key with a key usage extension; `validate_ku_and_eku_related_cert` compares the characters of the names (encipherOnly passes for decipherOnly), and refuses every extended key usage (C86).
* Requests for ECDH/ECMQV keys with key usage are always refused, and so is encipherOnly or decipherOnly with keyAgreement (C86).

**Message protection**
* A PasswordBasedMac message with an empty salt is verified with a fresh random salt: it practically never verifies (C88).
* Outside the lightweight profile the identifier of a signature algorithm is accepted as one-way function or pseudo-random function (C88).
* DHBasedMac with KMAC or GMAC derives the key from the shared secret instead of its hash; SHA-3 one-way functions can be prepared but not used; the derived key can be shorter than asked for (C89, C94).
* KemBasedMac with PBKDF2 never verifies after encoding; the verifier decapsulates the first ciphertext of generalInfo, the sender appends its own at the end; a message object cannot be verified before it is encoded (C90).
* RSASSA-PSS protection with SHA-384 or SHA-512 names that hash but signs with SHA-256; "rsassa_pss" with an EC key makes an ECDSA signature under the RSASSA-PSS identifier; DSA and composite protection has no branch in the verification (C91).
* Without an explicit public key the verification checks neither the parameters of the signature algorithm nor that it belongs to the family of the key: ecdsa-with-SHA256 with an RSA signature passes (C92).
* `mac_protection_algorithms_must_match` never looks at the confirmation when salts have to differ (it compares the response a second time), and refuses every confirmation with `same_salt`; HMAC and KMAC protection never matches itself; `allow_null` is reversed (with False the second algorithm must have no parameters) (C95).
* `signature_protection_must_match` refuses all RSA and RSASSA-PSS messages because their algorithm has parameters; pre-hashed and composite algorithms end in an IndexError; only the chain of the response's certificate is built from the other messages' certificates (C96).
* `verify_hybrid_pkimessage_protection` removes the alternative signature from the message it verifies, so a second verification always fails; it ignores the public key given for algorithms that are not composite, and ends in an IndexError when the message has no certificates; for composite algorithms it ignores `must_be_catalyst_signed` (C98).
* The alternative key is taken from generalInfo before the certificate is asked: a sender who holds only the primary key passes with an alternative key of their own (C99).
* `protect_hybrid_pkimessage(bad_message_check=True)` for catalyst spoils the alternative signature and then signs the result: the message protection itself is valid. A certificate given without `certs_dir` entries is not added to extraCerts. Protecting a message a second time leaves two alternative signatures, both removed before verifying, so the new one never verifies (C99).
* `validate_orig_pkimessage` lets other errors of the nested verification through (ValueError without password, PyAsn1Error without protection) (C100).
* `verify_popo_for_cert_request` passes index 0 to the verification of signatures: in a cr or ir with several requests only the signature of the first is verified, the second gets its certificate with an invalid signature; `check_if_request_is_for_kga` is likewise called for index 0 (C101, C102, C104).
* `verify_popo_for_cert_request` and `verify_sig_pop_for_pki_request` test for the body "crr" instead of "ccr" (C102).
* An alternative template in regInfo is validated but not used for key encipherment, key agreement and generated keys (C103).
* raVerified is accepted when the first of extraCerts, a public certificate, is the one of an RA; the protection of the message may be a MAC of anyone. A KEM-protected kur goes through `build_ip_cmp_message` with `verify_ra_verified=False` (C105).
* The issuer in oldCertId is compared with extraCerts[1], chosen by the sender; kur and p10cr templates are not subject to `validate_cert_template_public_key`; kur with key encipherment or key agreement proofs always end in BadPOP (C106, C108).
* A ccr whose template says cA=FALSE is certified so (C107).
* `check_consistency_sig_alg_id_and_key` knows no RSASSA-PSS identifier: such requests, valid for `verify_popo_for_cert_request`, are refused afterwards. RSA keys cannot be certified with keyEncipherment. challengeResp is answered as encrCert for key agreement (C109).
* `validate_cert_request_controls` returns at once when the controls are absent, whatever must be present (C110).
* The registration token is marked as used before the authenticator and the proof of possession are checked: anyone who knows it can burn it, and an honest request that fails once cannot be repeated. `process_cr` passes no issuing data: tokens and authenticators of a cr are not compared (C111).
* `validate_reg_info_utf8_pairs` unquotes the text before it parses it: UTF8Pairs in the form of RFC 4211 with an escaped percent sign, or with a name such as "fax", are refused, or read as another value (C112).
* The descriptor of a paired certificate drops the parameters of the delta's signature algorithm: with RSA the rebuilt certificate lacks the NULL its signature covers (C113).
* `validate_dcd_extension` ignores trailing data, which the rebuilding refuses (C113).
* A paired request with two delta requests is verified and issued for the last, while the checks for revoked and duplicate keys (`mock_ca/hybrid_handler.py`, `mock_ca/cert_req_handler.py`) look at the first (C114).
* `build_chameleon_cert_from_paired_csr` builds the base certificate with the default hash, whatever hash is asked for: with RSA the delta is not had back. With extensions in the delta request only, both certificates get the same object, with the key identifier of the delta key; with extensions in the base part only, the delta lacks them. A descriptor extension in both parts of the request is issued, comes first, and names a key nobody has proven (C115).
* With extensions in the base part of a paired request only, the paired certificate carries none of the CA's own extensions, and a requested key identifier twice (C115).
* `validate_enveloped_data` checks the type of the recipient at `recip_index` but always opens the first, never looks at the version of the EnvelopedData, and verifies the protection of a message with a password recipient only if `pwri` is named as the expected type (C116).
* KEM recipients with PBKDF2 or HKDF with SHA-3 pass the structure check and can then never be opened: the parameters of PBKDF2 are decoded as an AlgorithmIdentifier, and the hash of `hkdf-sha3-256` is read as `sha3` (C116).
* The originator of a key agreement recipient and the recipient identifier must both name the same certificate, that of the sender (C116). Parameters that are the DER encoding of NULL are accepted for RSA whether `allow_null` is set or not (C116).
* `prepare_enveloped_data_with_pwri` ignores its derivation function; `prepare_password_recipient_info` with HKDF derives the wrapping key from the wrapped key, not from the password; a key length other than 32 is built and never opened (C117).
* `prepare_kari` with `issuer_and_ser` and a certificate with a subject key identifier names its originator by serial number and its recipient by the identifier, which is refused; X25519 and X448 are opened with SHA-256 whatever hash was used (C117).
* `check_protection_alg_conform_to_spki` accepts any Edwards algorithm for any Edwards key, and refuses ECDSA with SHA-3 although RSA with SHA-3 and with SHA-1 is accepted (C118).
* `validate_signed_data_structure` verifies the signature over the content, not over the signed attributes (RFC 5652, 5.4), so that these can be replaced; it never compares the signer identifier, looks at the first signer only, and takes the last message digest if there are several (C119).
* A message digest that differs ends in an `AttributeError` of the error message itself (C119). A digest algorithm may be the identifier of a composite or pre-hash signature algorithm (C119).
* Chains of a key package are accepted only with the signer's certificate first or last; `prepare_signed_data` for several keys makes one signer, and the validation wants as many as keys (C119, C120).
* The usages of the certificate of a key transport or KEM recipient are not checked: the branches are empty (C120).
* `verify_catalyst_signature` verifies the alternative signature with the alternative key of the certificate itself: any ML-DSA key of the subject will do, so the alternative signature does not bind the certificate to its issuer (C121).
* Of several extensions of one type `validate_catalyst_extensions` takes the last and `load_catalyst_public_key` the first; only the latter refuses trailing data (C121).
* `verify_crl_signature` refuses every ordinary revocation list with extensions (a cRLNumber is mandatory), removes the alternative signature from the list it is given, so that a second verification fails, and `sign_crl_catalyst` with `use_rsa_pss` names PSS and signs without it (C122).
* Converting a Sun certificate to a form by value takes whatever is at the location: the hash in the certificate is not compared. `get_sun_hybrid_alt_pub_key` does not compare it either (C123, C125).
* `sun_cert_template_to_cert` writes the signature algorithm with "sha256" and signs with the hash asked for or that of the composite algorithm: for most composite algorithms ("sha512") the certificate does not verify (C124).
* `sun_csr_to_cert` uses an object identifier as the name of a hash if the request has no attribute for the hash of the key, and fails (C124).
* `validate_alt_sig_extn` removes the signature extension from the certificate it is given (C124).
* `prepare_related_cert_extension` hashes with the algorithm of the related certificate's signature, `validate_related_cert_extension` and `get_related_cert_from_list` with that of the certificate that has the extension: if the two certificates are signed with different hashes, what is issued is refused (C126).
* The location of the related certificate is not covered by the signature of the request (C127).
* `prepare_requester_certificate` replaces the request time 0 by the current time (C127).
* `validate_multi_auth_binding_csr` checks a given chain without looking whether the related certificate is in it (C128).
* `server_side_validate_cert_binding_for_multi_auth` reads the extensions as of a template and the validity as of a certificate, and demands that the related certificate's validity ends before it begins: it never succeeds (C128).
* `validate_cert_discovery_cert` hands the list of extensions to a function that takes one: it always fails. `get_cert_discovery_cert` does not compare the algorithms (C129).
* `compare_pyasn1_names`: `contains` and `contains_seq` check that the attributes of the first name are in the second, the documentation says the reverse; its examples write the mode in capitals, which raises `ValueError` (C130).
* `check_if_alg_id_parameters_is_absent` accepts decoded NULL parameters although `allow_null` is false (C130).
* `compare_cert_template_and_cert` compares only the object identifiers of extensions; `include_fields="serialNumber, issuer"`, as in `_contains_cert_template`, does not compare the issuer because of the blank; a template with an empty public key of another algorithm raises `TypeError` (C131).
* `_check_rev_details_mandatory_fields` allows the version v2 only, and `_contains_cert_template` compares it with that of the certificate: a revocation request that names a version cannot revoke a v3 certificate (C134).
* `build_rp_from_rr` with `enforce_lwcmp=False` reads `entry["certDetails"]` after `entry` was overwritten with the result: every request with an entry raises `KeyError` (C134).
* `compare_csr_and_cert` raises `NotImplementedError` for a request with any attribute besides one extension request (C133).
* `build_migration_cert_chain` looks at the list once: with the root before the intermediate certificate the chain ends with the latter. With `allow_self_signed` a certificate without an issuer in the list is returned as self-signed (C135).
* `find_sun_hybrid_issuer_cert` catches only `InvalidSignature`, `build_migration_cert_chain` no `InvalidKeyData`: another certificate with the name of the issuer and an unsupported key ends the search (C135, C136).
* `build_sun_hybrid_cert_chain` drops what is no Sun hybrid certificate: a chain never reaches an ordinary root (C136).
* `verify_cert_hybrid_signature` reads `other_cert` before it tests it, so that `catalyst_key` cannot be used, and looks at the algorithm of the key of the certificate, not of its signature (C137).
* `validate_general_response` only logs a wrong number of entries. `validate_get_ca_certs` returns silently when the size differs, or is a string, and so accepts anything (C138). It refuses absent CA certificates although `must_be_present` is false and accepts trailing bytes (C139).
* `validate_get_root_ca_cert_update` verifies no signature without the old certificate, and never compares the keys of `newWithNew` and `newWithOld` (C140).
* `validate_get_certificate_request_template` refuses an absent template or absent controls whatever the arguments say. `_validate_id_reg_ctrl_alg_id` accepts Ed25519 and Ed448 exactly when parameters are present (C141).
* `validate_genp_kem_ct_info` ignores the KEM algorithm. `build_genp_kem_ct_info_from_genm` answers a request with a value (C144).
* The general message handler never answers `keyPairParamReq` and `implicitConfirm` although it has code for both (C145). A refused message may leave a passphrase behind (C146).
* `process_pkimessage_with_popdecc` never hands the KEM ciphertext to `process_simple_challenge`, so a version 2 challenge for a KEM key cannot be answered (C149). It does not check the witness (C151).
* The Mock CA's challenge handler passes its table of open challenges as the keyword `challenge`, which is the value of the challenge. While one is open every version 3 challenge fails with a ValueError (C152).
* `validate_oob_cert_hash` hashes the `OOBCertHash` instead of the certificate, so no prepared hash is accepted (C153).
* `validate_ca_message_body` and `validate_certified_key_pair_structure` read `certOrEncCert["encryptedCert"]` of a Choice that holds a certificate. This makes pyasn1 drop the certificate, so the checked message loses it (C154, C155).
* `validate_ca_message_body` does not pass `used_p10cr` and `response_index` on. `caPubs` in a cp are never refused, `used_ir_as_cr` has no effect, and the status is always that of the first response (C154).
* `validate_pki_confirmation_message` does not know `ccp` (C156).
* `HybridIssuingHandler.is_revoked_for_issuing` drops the answers of `is_revoked` and `public_key_is_revoked`. Revoked certificates with composite keys and of the catalyst kind pass. `is_hybrid_cert` returns `related-cert` and `cert-discovery`, which are compared with `related_cert` and `cert_discovery`, so these always end in `NotImplementedError` (C157).
* `is_revoked_for_request` only checks chameleon certificates (C158).
* `build_enc_cert_response` always reads `request["body"]["ir"]`. A Sun hybrid certificate for a KEM key cannot be requested by cr or kur (C159).
* `_get_serial_number` returns a number that is in use after a hundred draws; `serial_number is None` is never true (C160).
* `process_sun_hybrid` only catches `CertRevoked` and `CMPTestSuiteError`. Unprotected requests and others end in an exception. A certificate is published before its response is protected (C161).
* `check_extensions` says that `other_extensions` override those of the request; the request wins. Extensions of the request of other types than the six that are checked are dropped (C162).
* `is_ca_cert` returns whether `cA` has a value, which is always so. `_validate_key_identifiers` compares bytes with a decoded structure, and with the wrong sign, so the authority key identifier is not checked (C163).
* `get_password_in_size` repeats or cuts a password, so different passwords give the same key (C164).
* `prepare_recip_info` accepts a key of an unsupported type if a password is given, and does not use the key; a password beside a supported key has no effect (C165).
* `prepare_enc_key_for_popo` with a recipient info and without its key encrypts the content with a new random key, which no recipient has. The version is 0 for KEM and password recipient infos; RFC 5652 asks for 3 (C166).
* `check_pkimessage_signature_protection` looks for the protection certificate with `verify_signature_with_cert`, which verifies RSA signatures with PKCS #1 v1.5 only. So a message with RSASSA-PSS is refused, although the algorithm is in `MSG_SIG_ALG` (C167).
