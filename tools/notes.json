{
 "C01": [
  "proved",
  ""
 ],
 "C02": [
  "partial",
  "Holds until a revive or key-update call for the same digest; the unrestricted statement is refuted (key update accepted for a revoked certificate)."
 ],
 "C03": [
  "proved",
  ""
 ],
 "C04": [
  "proved",
  ""
 ],
 "C05": [
  "partial",
  "All cases of the answer are characterised; the case of a certificate that is only updated raises instead of answering (refuted theorem)."
 ],
 "C06": [
  "partial",
  "CRL content and CertRevStateDB numbers proved; CertificateDB number never increases (refuted theorem)."
 ],
 "C07": [
  "proved",
  ""
 ],
 "C08": [
  "proved",
  ""
 ],
 "C09": [
  "partial",
  "Exact for ir/cr/kur/p10cr when every template has a key; deviations refuted."
 ],
 "C10": [
  "partial",
  "Exact characterisation; the traditional-vs-PQ component case is missed by the code (refuted theorem)."
 ],
 "C20": [
  "proved",
  ""
 ],
 "C11": [
  "proved",
  "Unit level complete. At system level, ids are granted certificates once except for transactions answered through a challenge, which are not reserved (refuted theorem)."
 ],
 "C12": [
  "partial",
  "Requests other than rr and challenge requests: proved. Deviations refuted by witness: rr may use a spent secret, an accepted request that is answered with a challenge does not spend it, a rejected request may spend it."
 ],
 "C13": [
  "proved",
  ""
 ],
 "C14": [
  "partial",
  "Per certificate and for every message whose protection the CA verifies. Refuted for revocation requests, certConf inside a batch, and for a second certificate of the same key. The range of the index is checked by the signature scheme, which is not modelled."
 ],
 "C15": [
  "partial",
  "Complete except that a certConf with status 'rejection' is accepted without comparing the hash and confirms the certificate (refuted theorem)."
 ],
 "C16": [
  "proved",
  "For the request itself; the signer of a message inside a nested message is not checked by the code (refuted theorem)."
 ],
 "C17": [
  "partial",
  "The CA accepts exactly one entry per rr. Complete for every reply; when the response cannot be protected the client sees HTTP 500 after the change (refuted theorem)."
 ],
 "C18": [
  "proved",
  "A refused batch keeps the effects of earlier messages (separate refuted theorem)."
 ],
 "C19": [
  "partial",
  "Complete except for a refused batch, whose error may carry the ids of an inner message (refuted theorem)."
 ],
 "C47": [
  "partial",
  "Refuted for certificates obtained through a challenge and for refused requests with a stateful key whose proof of possession is unreadable."
 ],
 "C48": [
  "proved",
  ""
 ],
 "C49": [
  "proved",
  ""
 ],
 "C21": [
  "proved",
  "The d = 12 bytes-to-bytes direction is false by design (values of q and above are reduced); stated as a refutation."
 ],
 "C22": [
  "proved",
  "Also: compression is rounding to nearest modulo 2^d."
 ],
 "C23": [
  "proved",
  "Both directions."
 ],
 "C24": [
  "proved",
  ""
 ],
 "C25": [
  "proved",
  "sample_ntt characterised exactly, including the RuntimeError when the stream runs out."
 ],
 "C26": [
  "proved",
  "Conditional on the FIPS 203 no-failure event, stated in the coefficient ring (MlKemSpec.no_failure)."
 ],
 "C27": [
  "proved",
  "Over-long ciphertexts are implicitly rejected; too short ones raise IndexError (C27_decaps_short_raises)."
 ],
 "C28": [
  "proved",
  "Both directions, all bounds; too short input raises IndexError."
 ],
 "C29": [
  "proved",
  "All hints and all byte strings of length omega+k, three parameter sets."
 ],
 "C30": [
  "proved",
  "Both directions and the standard lengths."
 ],
 "C31": [
  "proved",
  "Coefficient-wise and for use_hint/make_hint on vectors."
 ],
 "C32": [
  "proved",
  "All integer polynomials; product is that of Z_q[X]/(X^256+1)."
 ],
 "C33": [
  "proved",
  "For every hash function family of the right output lengths; the rejection loop is fuelled, a fuel-exhausted run is a run that has not returned. Pure and pre-hash variants."
 ],
 "C50": [
  "proved",
  "accepts is FIPS 204 verification in the coefficient ring; RuntimeError is the exhausted XOF. Finding: trailing bytes are ignored (C50_unique_encoding_refuted)."
 ],
 "C51": [
  "proved",
  ""
 ],
 "C52": [
  "proved",
  ""
 ],
 "C34": [
  "proved",
  ""
 ],
 "C35": [
  "proved",
  "All twelve parameter sets and all hash functions with the right output lengths; the layers are stated one by one as well."
 ],
 "C36": [
  "partial",
  "The claim is false of hash_slh_sign and hash_ml_dsa_verify: C36_refuted (swapped arguments of the internal signer) and C36_names_refuted (no name accepted by both)."
 ],
 "C37": [
  "proved",
  "int.to_bytes on a value that does not fit raises in the code and is reduced in the model; all values are in range."
 ],
 "C53": [
  "proved",
  ""
 ],
 "C54": [
  "proved",
  "The reduction is explicit: the second preimage is one of the listed hash inputs of this verification, the chain value is a piece of the signature."
 ],
 "C55": [
  "proved",
  ""
 ],
 "C56": [
  "proved",
  ""
 ],
 "C57": [
  "proved",
  "Findings: PQKeyFactory.from_private_bytes cuts its input to the expanded-key length first (C57_factory_trailing, C57_factory_seed_and_key_refuted)."
 ],
 "C58": [
  "proved",
  "The exceptions are exact findings: version 0 with public key is written but refused, seeds that look like DER are refused, must_be_version_2 has no effect, the export check refuses two kinds of keys it should accept (the _refuted theorems)."
 ],
 "C59": [
  "partial",
  "True of from_private_bytes for ML-DSA and SLH-DSA (C59_dsa_slh); false for ML-KEM and for the both form of OneAsymmetricKey (C59_kem_refuted, C59_one_asym_key_refuted)."
 ],
 "C60": [
  "proved",
  "Finding: an empty public key is not checked and replaces the key's own (C60_empty_refuted)."
 ],
 "C61": [
  "proved",
  ""
 ],
 "C62": [
  "proved",
  "Finding: ML-DSA sign ignores an unsupported hash algorithm while verify raises ValueError (C62_dsa_other_hash_refuted); SLH-DSA ignores it on both sides."
 ],
 "C43": [
  "proved",
  "Exact characterisation of both keywords; distance counted over the zero-padded strings."
 ],
 "C44": [
  "proved",
  "Change of exactly the first byte proved; the involution holds only for first bytes 0 and 1 (C44_twice, C44_twice_refuted)."
 ],
 "C45": [
  "proved",
  "Exact characterisations."
 ],
 "C63": [
  "proved",
  "Exact; finding: with a request the interval is one-sided (C63_interval_refuted)."
 ],
 "C64": [
  "partial",
  "The client-side check is characterised exactly; it looks only at the first entry of a type (C64_every_entry_refuted), and the CA-side profile count is reversed (C64_profile_count_refuted)."
 ],
 "C65": [
  "partial",
  "Signature side exact; for MAC protection the commonName requirement is false (C65_common_name_refuted) because the textual form is never absent."
 ],
 "C66": [
  "proved",
  "Exact characterisation."
 ],
 "C67": [
  "proved",
  "Exact characterisation."
 ],
 "C68": [
  "partial",
  "Proved for batches without two requests of the same body type; refuted otherwise (C68_every_request_refuted)."
 ],
 "C69": [
  "proved",
  "Exact characterisation against an inductive relation, for every nesting depth."
 ],
 "C70": [
  "proved",
  "Exact; a certConf must reuse the senderNonce of the request answered by the response."
 ],
 "C71": [
  "proved",
  "Conjunction of parts that C45, C63, C64 and C65 characterise."
 ],
 "C46": [
  "proved",
  "Exact shape, completeness and termination. Findings: must_be_self_signed compares names only, cyclic pools give repetitions, an unreadable key hides the issuer (three _refuted theorems)."
 ],
 "C72": [
  "partial",
  "Exact characterisation of what the code decides (C72_exact) and exact for chains starting at position 0 (C72_from_first); in general unordered chains can pass (C72_sound_refuted)."
 ],
 "C73": [
  "partial",
  "Exact except for the order of the chain, which does not influence the outcome (C73_order_refuted)."
 ],
 "C74": [
  "partial",
  "Exact; but a chain of one certificate is accepted without key usage check (C74_key_usage_refuted) and trustanchors=None trusts nothing (C74_system_store_refuted)."
 ],
 "C41": [
  "proved",
  "Exact for all keys, contexts and messages, with the component schemes as parameters (ML-DSA is the verified model). Findings: RSA keys of unlisted sizes sign but never verify (C41_rsa_rounding_refuted); ML-DSA-87 with RSA always fails with the default padding argument (C41_default_padding_refuted); the default exported identifier is not the one signed with by default (C41_default_spki_refuted)."
 ],
 "C75": [
  "partial",
  "Everything but the size of an RSA public key: it is not compared with the identifier (C75_public_size_refuted). Saving raw keys gives something the loader cannot read (C75_raw_refuted), saving seed and key always fails (C75_seed_and_raw_refuted)."
 ],
 "C76": [
  "proved",
  "For all keys, randomness and library functions with symmetric Diffie-Hellman. Findings: brainpool curves share the KEM identifiers of the NIST curves (C76_dhkem_suite_refuted); DHKEM hashes the received encoding, so two encodings of a point give different secrets (C76_dhkem_encoding_refuted); an explicit RSA-KEM random value above the modulus makes the sides disagree (C76_rsakem_rand_refuted)."
 ],
 "C40": [
  "partial",
  "Agreement, exact formulas, identifiers and binding for all keys, with the traditional mechanisms of C76 and the ML-KEM model; other post-quantum halves are parameters. The ciphertext does not split uniquely for X-Wing: trailing bytes are ignored (C40_xwing_length_refuted). Findings: by default (use_in_cms=True) the composite KDF is always SHA3-256 (C40_comp_default_kdf_refuted); AES and SHAKE FrodoKEM share a Chempat context (C40_chempat_context_refuted); private and public composite keys have different identifiers for odd RSA sizes (C40_comp_priv_oid_refuted)."
 ],
 "C77": [
  "partial",
  "Exact loading for all identifiers and byte strings; round trips for X-Wing (all forms of 32 byte seeds), Chempat with ML-KEM (all forms) and composite keys in the default form. Refuted: a stored Chempat public key may have any post-quantum half (C77_chempat_public_refuted); raw and seed_and_raw composite exports are not read back (C77_comp_raw_refuted); keys of 96 byte X-Wing seeds lose the seed or are not read back (C77_xwing_long_seed_refuted); Chempat writes EC numbers with as many bytes as the curve has bits (C77_chempat_scalar_refuted)."
 ],
 "C38": [
  "proved",
  "Exact for all matrices, byte strings, messages, noise matrices and 16-bit samples, for the three parameter sets. The floating-point rounding in decode is modelled by exact rationals (exact for the entries the KEM passes)."
 ],
 "C39": [
  "proved",
  "For all seeds, randomness, keys and ciphertexts, with SHAKE and AES as parameters; contents of keys and ciphertexts are pinned to the specification. Finding: without liboqs private bytes of any length load as a key (C39_load_length_refuted)."
 ],
 "C42": [
  "partial",
  "Exact for all level lists, all public keys and all well-formed signatures, under the assumption that pyhsslms reads RFC 8554 encodings (a parser doing so is given). Refuted: enforce_lw removes the uniformity rules it is documented to add (C42_enforce_lw_refuted); with trees of different heights valid signatures are refused or counted with gaps (C42_mixed_heights_refused_refuted, C42_mixed_heights_position_refuted); get_leaf_index repeats (C42_leaf_index_unique_refuted)."
 ],
 "C78": [
  "partial",
  "Exact results for all signatures. Refuted parts: the index is written little-endian and read big-endian (C78_index_read_back_refuted, exact form C78_xmss_index_read, C78_hss_index); the default index of HSS is out of range exactly for heights 5, 10 and 15 (C78_hss_default_index); the changed HSS byte is the first of the LM-OTS type code (C78_hss_signature)."
 ],
 "C79": [
  "partial",
  "Exact for XMSS and XMSS^MT; for HSS under the assumption that pyhsslms reads back what it serializes. Refuted parts: last_index without index (C79_last_index_alone_refuted), the index of HSS keys with two or more levels (C79_hss_index_refuted), used_index for HSS (C79_hss_used_refuted), used_index equal to the number of recorded keys is an IndexError (C79_used_index)."
 ],
 "C80": [
  "partial",
  "Exact loading and public key extraction. Refuted part: registered XMSS^MT numbers 0x21 to 0x38 and unknown numbers end in a KeyError (C80_mt_registered_refuted, C80_mt_keyerror)."
 ],
 "C81": [
  "partial",
  "Exact for all bit strings, indices and texts listing names. Refuted parts: a blank after a comma changes the exclusive result (C81_blank_refuted); an exclusive list passes with only one of its bits set (C81_exclusive_all_refuted); the documented list \"1, 9\" is a ValueError (C81_documented_list_refuted); negative indices count from the end (C81_negative); a set bit past the names is overlooked by name (C81_name_index_refuted). Strings are modelled as ASCII."
 ],
 "C82": [
  "proved",
  "For every table of distinct identifier-like names; the tables of key usage and failure information are shown to be such (C81_names). With no bit set the text splits into one empty name (C82_split)."
 ],
 "C83": [
  "partial",
  "Exact at all levels for all usages. Refuted part: must_not_contain_key_usage refuses only if all given usages are there (C83_must_not, C83_must_not_refuted)."
 ],
 "C84": [
  "partial",
  "Exact for extensions without repeated OIDs and names separated by single commas. Refuted parts: the documented form with a blank after the comma is always refused (C84_documented_form_refuted); repeated OIDs are counted (C84_repeated_passes_refuted, C84_repeated_fails_refuted)."
 ],
 "C85": [
  "partial",
  "Exact for all messages and lists of names. Refuted parts: by default a wrong failure is tolerated (C85_default_refuted); rejected revocations never pass check_rp_cmp_message_body (C85_revocation_rejection_refuted, exact form C85_revocation); without exclusive the comparison of numbers is never true (C85_not_exclusive_refuted); CRL reasons are compared by position (C85_reasons_refuted)."
 ],
 "C86": [
  "partial",
  "Exact for all usages and key kinds after the extensions are decoded. Refuted parts: encipherOnly and decipherOnly are never granted (C86_encipher_only_refuted); ECDH and ECMQV requests are unknown (C86_ecdh_refuted); the end-entity flag is reversed (C86_logic_refuted, exact form C86_logic); migration certificates with signature keys never pass with a key usage (C86_migration_sig_refuted); related certificates are compared by characters (C86_related_refuted), never pass with an extended key usage (C86_related_eku_refuted), and end in an AttributeError without key usage (C86_related_absent_refuted)."
 ],
 "C87": [
  "proved",
  "For all options; the random parts are os.urandom of the two sides. AES-GMAC keys of a length the library refuses do not get protected in the first place."
 ],
 "C88": [
  "partial",
  "Exact for all algorithm identifiers. Refuted part: a PasswordBasedMac message with an empty salt is verified with a fresh random salt, so the decision depends on the verifier's random bytes (C88_empty_salt_refuted). Identifiers of signature algorithms count as one-way functions and pseudo-random functions outside the profile (visible in prf_hashes and owf_hashes)."
 ],
 "C89": [
  "partial",
  "Exact. Refuted parts: with KMAC and GMAC the key is taken from the shared secret itself, not from its hash (C89_key_refuted); SHA-3 one-way functions end in a KeyError (C89_sha3_refuted). The shared secret is given as bytes."
 ],
 "C90": [
  "partial",
  "Exact acceptance; round trips for KDF2, KDF3 and HKDF. Refuted parts: PBKDF2 (C90_pbkdf2_refuted), a header that already has a ciphertext (C90_second_ciphertext_refuted), the message object before it is encoded (C90_untransported_refuted). Decapsulation of the library is a parameter that undoes its encapsulation."
 ],
 "C91": [
  "partial",
  "For all RSA, EC, Ed25519, Ed448, post-quantum and stateful keys, without random parameters. Refuted parts: RSASSA-PSS with a hash other than SHA-256 and SHAKE (C91_pss_hash_refuted); rsassa_pss with other keys, DSA keys and composite keys (C91_other_keys_refuted)."
 ],
 "C92": [
  "partial",
  "Exact with a public key. With the certificate only for identifiers that fit the key (C92_certificate_partial). Refuted parts: the certificate path checks neither parameters nor family (C92_certificate_refuted); a composite identifier is not compared with the key's (C92_composite_refuted)."
 ],
 "C93": [
  "proved",
  ""
 ],
 "C94": [
  "partial",
  "Exact. Refuted part: the DHBasedMac key derivation can return fewer bytes than asked for when the base key is longer than a digest (C94_dh_key_length_refuted); the length is right for keys of up to 40 bytes and for base keys no longer than a digest (C94_dh_key_length_partial)."
 ],
 "C95": [
  "partial",
  "Exact in both modes. Refuted parts: the confirmation is not looked at, or with same_salt never passes (C95_conf_refuted); HMAC and KMAC never match, nor does a received PasswordBasedMac request (C95_bare_refuted); without strict two signature algorithms pass (C95_not_strict_mac_refuted)."
 ],
 "C96": [
  "partial",
  "Exact; the chain builder is a parameter (C46 is about it). Refuted parts: RSA and PSS signatures are never consistent because of their parameters (C96_parameters_refuted); another message may start with a different certificate (C96_first_cert_refuted); pre-hashed algorithms raise an IndexError (C96_prehash_refuted)."
 ],
 "C97": [
  "proved",
  ""
 ],
 "C98": [
  "partial",
  "Exact, and exact about the message object. Refuted parts: a message verified through an alternative signature never verifies again (C98_twice_refuted); the public key argument has no effect unless the algorithm is composite (C98_key_refuted); must_be_catalyst_signed has no effect for composite algorithms (C98_must_refuted). The alternative key of a certificate (may_extract_alt_key_from_cert) and the composition of keys are parameters."
 ],
 "C99": [
  "partial",
  "For all keys, with hybrid generalInfo entries absent before. Refuted parts: the certificate is not sent without a directory (C99_certificate_refuted); the alternative key is taken from the message itself whatever the certificate says (C99_self_asserted_refuted); bad_message_check leaves the primary signature valid (C99_bad_refuted); with a composite primary key the alternative signature is not looked at (C99_composite_refuted); protecting again gives a message that does not verify (C99_again_refuted)."
 ],
 "C100": [
  "partial",
  "Exact. Refuted part: failures other than a wrong signature or MAC are not reported as BadMessageCheck (C100_failures_refuted). Decoding of PKIMessages is a parameter."
 ],
 "C101": [
  "partial",
  "Proved for a single request and for the first of several, with an exact condition (C101_exact) and for everything the server answers (C101_server_partial). For the others of a message the signature looked at is the one of the first request; that this is wrong is C101_batch_refuted. The control checks (validate_cert_request_controls) and certificate building are parameters."
 ],
 "C102": [
  "partial",
  "Exact for the first request. For the others the signature of the first request is verified (C102_other_partial), so that a valid one is refused (C102_other_refuted); cross-certification requests are always refused (C102_cross_refuted)."
 ],
 "C103": [
  "partial",
  "Exact; the key is preserved in all cases; the alternative template is in force for signed and RA-verified requests. Refuted part: it is ignored for the other proofs and for generated keys (C103_ignored_refuted)."
 ],
 "C104": [
  "partial",
  "Exact. Refuted parts: whether a request is for a generated key is decided from the first request, so requests that are answered alone fail together (C104_mixed_refuted); the lightweight profile is not enforced for cr (C104_cr_refuted)."
 ],
 "C105": [
  "partial",
  "The check is exact. Refuted parts: it is not looked at who protected the message (C105_sender_refuted, C105_mac_refuted), and key updates protected with a KEM are not checked (C105_kem_refuted). Chain building and key usages are parameters."
 ],
 "C106": [
  "partial",
  "Exact. Refuted parts: the issuer is compared with the second certificate of the message instead of the issuer of the old one (C106_issuer_refuted); the key rules of templates are not applied (C106_template_refuted); proofs other than signatures are refused (C106_kem_refuted)."
 ],
 "C107": [
  "partial",
  "Exact. Refuted part: a template that says it is no CA is certified as it is (C107_ca_refuted)."
 ],
 "C108": [
  "partial",
  "Exact. Refuted part: the key rules of templates are not applied (C108_template_refuted)."
 ],
 "C109": [
  "partial",
  "Exact conditions. Refuted parts: requests signed with RSASSA-PSS are refused (C109_pss_refuted); RSA keys cannot use key encipherment (C109_rsa_refuted); challenge-response is answered with an encrypted certificate for key agreement keys (C109_challenge_refuted)."
 ],
 "C110": [
  "partial",
  "Exact. Refuted parts: nothing is required when the field of the controls is absent (C110_required_refuted); archive options and publication information may be given more than once (C110_twice_refuted)."
 ],
 "C111": [
  "partial",
  "At most once, with the right token, for all histories of ir and KEM-protected kur. Refuted parts: the token is used up by a request that is then refused (C111_consumed_refuted); a cr is accepted with any token, any number of times (C111_cr_refuted); no request needs a token (C111_needed_refuted)."
 ],
 "C112": [
  "partial",
  "Exact, with UTF-8 and URL quoting modelled. Refuted part: texts that are not quoted as a whole (as in RFC 4211, and with encode=False) are decoded twice (C112_raw_refuted). str.isdigit is a parameter that knows the digits 2 and 3. Unquoting is specified exactly (C112_unquoted, C112_wide)."
 ],
 "C113": [
  "partial",
  "Exact, for any certificates. Refuted parts: the parameters of a differing algorithm are lost (C113_parameters_refuted); the validation accepts descriptors with trailing data that cannot be rebuilt from (C113_trailing_refuted)."
 ],
 "C114": [
  "partial",
  "Exact. Refuted part: of two delta requests the last is verified and issued, the first is looked up for revoked and duplicate keys (C114_two_refuted)."
 ],
 "C115": [
  "partial",
  "For all requests whose two parts have extensions. Refuted parts: another hash with an RSA key (C115_hash_refuted); extensions in one part only (C115_one_part_refuted); a descriptor in both parts of the request is issued and hides the real one (C115_injected_refuted). Exact also without extensions (C115_unasked) and with extensions in the base part only (C115_base_only)."
 ],
 "C116": [
  "partial",
  "Exact for every function. Refuted parts: the version is not looked at (C116_version_refuted); with several recipients the first is used, whatever index is given (C116_index_refuted); without an expected type the protection is not verified (C116_unverified_refuted); accepted derivation functions that never open (C116_kdf_refuted)."
 ],
 "C117": [
  "partial",
  "Exact in the options. Refuted parts: the derivation function asked for is ignored (C117_kdf_refuted); HKDF with a password (C117_hkdf_refuted); another hash with X25519 (C117_scheme_refuted); issuer and serial number for a certificate with a key identifier (C117_mixed_refuted); a given ciphertext without its secret (C117_ciphertext_refuted)."
 ],
 "C118": [
  "partial",
  "Exact. Refuted parts: Ed448 is accepted for Ed25519 keys and the other way round (C118_eddsa_refuted); ECDSA with SHA-3 is refused (C118_sha3_refuted)."
 ],
 "C119": [
  "partial",
  "Exact, with the round trip of the builder. Refuted parts: several keys are built but never accepted (C119_keys_refuted); the signature does not cover the signed attributes (C119_attributes_refuted); the signer identifier is not compared (C119_signer_refuted); only the first signer is looked at (C119_signers_refuted); a wrong digest is an AttributeError (C119_digest_refuted)."
 ],
 "C120": [
  "partial",
  "Exact, with the round trip for a password. Refuted parts: several keys need as many recipients, signers and digests (C120_keys_refuted); the usages of key transport and KEM certificates are not checked (C120_usage_refuted)."
 ],
 "C121": [
  "partial",
  "Exact, with the round trip. Refuted parts: the alternative signature is verified with the key in the certificate itself, not that of the issuer (C121_issuer_refuted); the verification takes the last alternative key and load_catalyst_public_key the first (C121_readers_refuted), and they disagree about trailing data (C121_trailing_refuted); the algorithm demanded need not be that of the key (C121_algorithm_refuted)."
 ],
 "C122": [
  "partial",
  "Exact, with the round trips. Refuted parts: an ordinary list with extensions is refused although no alternative signature is demanded (C122_extensions_refuted); a list that was verified cannot be verified again (C122_twice_refuted); with RSASSA-PSS the algorithm named is not that of the signature (C122_pss_refuted)."
 ],
 "C123": [
  "partial",
  "Exact, with the round trip between all forms. Refuted parts: converting to a value does not check the hash of what is at the location (C123_hash_checked_refuted); only the first certificate with a signature by value is considered (C123_contains_any_refuted); with two extensions of a type the certificate does not have the form asked for after the conversion (C123_converted_refuted)."
 ],
 "C124": [
  "partial",
  "Exact, with the round trip of issuing and verifying. Refuted parts: a certificate issued from a template names its signature algorithm with \"sha256\" whatever hash it is signed with (C124_template_verified_refuted); a request without the attribute for the hash of the key is never answered (C124_request_default_refuted); a validated certificate cannot be validated again (C124_signature_twice)."
 ],
 "C125": [
  "partial",
  "Exact. Refuted parts: the hash of a key by reference is not compared (C125_reference_checked_refuted); an unreadable subjectInfoAccess extension hides the key (C125_access_ignored_refuted)."
 ],
 "C126": [
  "partial",
  "Exact, with uniqueness and the round trip for equal hashes. Refuted parts: the extension is made with the hash of the related certificate and validated with that of the certificate that has it (C126_other_hash_refuted; for which, C126_other_hash); a certificate found in a list need not be accepted, the usages are not looked at (C126_found_accepted_refuted)."
 ],
 "C127": [
  "partial",
  "Exact, with the round trip. Refuted parts: the location is not signed, so that it can be replaced (C127_location_refuted, C127_moved); a request time of 0 is replaced by the current time (C127_time_zero_refuted). The proof can be copied into another certificate request (C127_copied)."
 ],
 "C128": [
  "partial",
  "Exact. Refuted parts: a chain that is given is checked although it need not contain the certificate that is returned (C128_other_chain_refuted); the check of the server fails for everything that can be handed in (C128_server_refuted). Without OpenSSL only the last certificate is looked at (C128_no_chain). Building a chain is that of C46."
 ],
 "C129": [
  "partial",
  "Exact for extracting, preparing, the algorithms and finding. Refuted parts: what is found need not have the algorithms of the descriptor (C129_discovered_fits_refuted); validate_cert_discovery_cert always fails (C129_validated_refuted)."
 ],
 "C130": [
  "partial",
  "Exact for each mode. Refuted parts: the documentation says the reverse of what contains checks (C130_documented_refuted) and writes the modes in capitals, which are refused (C130_documented_mode_refuted); NULL parameters that were decoded count as absent even if they are not allowed to (C130_params_refuted)."
 ],
 "C131": [
  "partial",
  "Exact. Refuted parts: the values of extensions are not compared (C131_extensions_refuted); a field after a comma and a blank is not compared (C131_blank_refuted); an empty key with another algorithm raises TypeError (C131_key_refuted)."
 ],
 "C132": [
  "partial",
  "Exact. Refuted part: the status grantedWithMods is accepted without modifications (C132_granted_refuted). An empty template would select the first certificate (C132_anything); it is refused before (C134)."
 ],
 "C133": [
  "partial",
  "Exact. Refuted part: a request with another attribute raises NotImplementedError (C133_attributes_refuted, C133_attributes)."
 ],
 "C134": [
  "partial",
  "Exact, with uniqueness and one step of history each way. Refuted parts: an entry that names the version cannot revoke a v3 certificate (C134_version_refuted, C134_version); without the lightweight profile nothing is answered (C134_no_profile_refuted, C134_no_profile). The histories of the mock CA are those of C17 and C48."
 ],
 "C135": [
  "partial",
  "Sound, and complete for ordered lists. Refuted parts: the list is looked at once, so that in another order the chain ends early (C135_order_refuted); a certificate without an issuer in the list passes for self-signed (C135_self_signed_refuted); a key that cannot be read ends the search (C135_unreadable_refuted, C135_unreadable)."
 ],
 "C136": [
  "partial",
  "Exact. Refuted parts: a key that cannot be read before the issuer ends the search (C136_issuer_refuted); a certificate that is no Sun hybrid certificate, such as the root, is never in the chain (C136_ordinary_refuted)."
 ],
 "C137": [
  "partial",
  "Exact. Refuted parts: the catalyst key cannot stand in for the other certificate (C137_catalyst_refuted, C137_catalyst); the key of the certificate itself is looked at in place of its signature algorithm (C137_own_key_refuted)."
 ],
 "C138": [
  "partial",
  "Exact. Refuted parts: a wrong number of entries is only logged (C138_size_refuted, C138_size_ignored); for the CA certificates a wrong size, or a size given as a string, makes the check pass without looking at the answer (C138_ca_certs_silent)."
 ],
 "C139": [
  "partial",
  "Exact. Refuted parts: an answer without certificates is refused although it may be absent (C139_absent_refuted); bytes after the certificates are accepted (C139_trailing_refuted)."
 ],
 "C140": [
  "partial",
  "Exact. Refuted parts: without the old certificate no signature at all is checked (C140_without_old, C140_unsigned_refuted); newWithOld may hold another key than newWithNew (C140_other_key_refuted)."
 ],
 "C141": [
  "partial",
  "Exact. Refuted parts: the template and its key specification cannot be left out although the arguments say so (C141_optional_refuted); Ed25519 and Ed448 are accepted exactly when the parameters are present, against RFC 8410 (C141_edwards_refuted)."
 ],
 "C142": [
  "proved",
  "Exact characterisations, decoding and the checks of a single CRL as parameters."
 ],
 "C143": [
  "proved",
  "Exact characterisations. Note: an empty list of signing key types is accepted."
 ],
 "C144": [
  "partial",
  "Exact, and agreement proved for every correct KEM. Refuted parts: the algorithm beside the ciphertext is never looked at (C144_algorithm_refuted); a request with a value, which must be absent, is answered (C144_value_refuted)."
 ],
 "C145": [
  "partial",
  "Refuted part: the code that answers key pair parameter requests and the implicit confirmation is never reached (C145_implemented_refuted)."
 ],
 "C146": [
  "partial",
  "Refuted part: without Lightweight CMP a refused message may leave a passphrase behind (C146_rollback_refuted)."
 ],
 "C147": [
  "proved",
  "The template passes iff the configured RSA length is at least 2048 (C147_template)."
 ],
 "C148": [
  "proved",
  "The comparison of the distribution point with the CA is a parameter."
 ],
 "C149": [
  "partial",
  "RSA and key agreement in version 2, every key in version 3. Refuted part: a KEM key in version 2 is never answered because the ciphertext is not handed over (C149_kem_refuted). Hybrid KEM keys are not modelled."
 ],
 "C150": [
  "proved",
  "Exact, decryption and codecs as parameters."
 ],
 "C151": [
  "partial",
  "Refuted part: the end entity never checks the witness (C151_checked_refuted). Note: the CA certificate is not used for the name in version 2 (C151_plain)."
 ],
 "C152": [
  "partial",
  "Refuted part: while a challenge is open no challenge of version 3 is sent, because the table of challenges is handed over as the value of the challenge (C152_concurrent_refuted). The transitions of the whole Mock CA (C01 and following) take the outcome of this step as a parameter."
 ],
 "C153": [
  "partial",
  "Exact for the code. Refuted part: the hash compared is that of the OOBCertHash itself, so a prepared hash is never accepted (C153_accepted_refuted)."
 ],
 "C154": [
  "partial",
  "Exact. Refuted parts: the check takes the certificate out of the message, so it cannot be repeated and the certificate cannot be read afterwards (C154_repeatable_refuted); caPubs are accepted in a cp and after an ir used as cr (C154_ca_pubs_refuted, C154_ir_as_cr_refuted); the status is always that of the first response (C154_status_refuted). The effect of reading an alternative of a pyasn1 Choice is an assumption of the model."
 ],
 "C155": [
  "partial",
  "Exact. Refuted part: the check of the structure drops a plain certificate (C155_structure_drops_refuted), and asking for the certificate of a response with an encrypted one loses it (C155_encrypted_lost_refuted). Note: caPubs are checked with the certificate of the first response whatever the index (C155_ca_pubs)."
 ],
 "C156": [
  "partial",
  "Exact; the comparison of protection algorithms is that of the properties on protection and a parameter here. Refuted part: a confirmation after a ccp is always refused (C156_confirm_cross_refuted)."
 ],
 "C157": [
  "partial",
  "The exact condition is proved (C157_accepted). Refuted parts: catalyst and composite certificates are never checked (C157_unchecked_refuted), related certificates and certificate discovery are always refused because the kinds are misspelt (C157_names_refuted), the answer for the delta key is dropped (C157_delta_key_refuted), updated Sun certificates pass (C157_updated_refuted), and the argument used_both_certs has no effect (C157_both_refuted)."
 ],
 "C158": [
  "partial",
  "Exact. Refuted part: in a request with several signatures only a chameleon certificate is checked (C158_request_refuted)."
 ],
 "C159": [
  "partial",
  "Exact; the builders of certificates are parameters. Refuted parts: a key to encrypt is not possible in a cr or kur (C159_kem_refuted), a bad signature is not made for it (C159_bad_signature_refuted), and the locations are not used for a CSR (C159_locations_refuted)."
 ],
 "C160": [
  "partial",
  "Exact. Refuted part: after a hundred numbers that are in use the last one is taken (C160_unique_refuted), and the entry of the other certificate is replaced."
 ],
 "C161": [
  "partial",
  "Exact for requests that pass. Refuted parts: requests without protection, with certain signers and for keys to encrypt in a cr or kur are not answered (C161_unprotected_refuted, C161_kinds_refuted, C161_kem_refuted), and a certificate stays published when its response cannot be protected (C161_published_refuted). The effects of the handlers of certConf and rr are those of the properties on the Mock CA."
 ],
 "C162": [
  "partial",
  "The acceptance and the result are exact (C162_accepted, C162_looked_at, C162_others). Refuted parts: the extension of the request wins over that of the CA, against the documentation (C162_override_refuted), and extensions of the request of other types are dropped without an error (C162_dropped_refuted). The checks of single extensions are parameters."
 ],
 "C163": [
  "partial",
  "Exact. Refuted parts: the field cA is never looked at (C163_ca_refuted), and the authority key identifier may be any (C163_aki_refuted). That a decoded field with a default has a value, and that a pyasn1 structure is not equal to bytes, are assumptions of the model."
 ],
 "C164": [
  "partial",
  "Exact for passwords that are byte strings (C164_password, C164_expand). Refuted part: different passwords do not give different keys (C164_double_refuted, C164_cut_refuted). Passwords that are text, which are repeated before hexadecimal notation is decoded, are not modelled."
 ],
 "C165": [
  "partial",
  "Exact (C165_made, C165_kind, C165_unwraps, C165_refused). Refuted parts: a key of an unsupported type is accepted and not used if there is a password (C165_unsupported_refuted); a password beside a supported key has no effect (C165_password_refuted). That the single builders wrap the key they are given is a hypothesis; it is the subject of the properties about EnvelopedData."
 ],
 "C166": [
  "partial",
  "Proved for recipient infos that are made by the call (C166_opens, C166_key, C166_rid, C166_own_rid, C166_option) and for those of the caller with their key (C166_given_partial). Refuted parts: with a recipient info of the caller and no key the content is encrypted with a new random key that no recipient has (C166_given_refuted); the version is 0 for KEM and password recipient infos, where RFC 5652 asks for 3 (C166_version_refuted)."
 ],
 "C167": [
  "partial",
  "Exact for messages with a signature algorithm (C167_accepted, C167_first, C167_position). Refuted parts: messages signed with RSASSA-PSS, which is in the table of algorithms, are refused although their protection verifies, because the search for the certificate uses the other padding (C167_pss_refuted); with the default settings the sender may be any name (C167_sender_refuted). The verifications of signatures and the check of the field protectionAlg are parameters."
 ]
}