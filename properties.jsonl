{"id": "C01", "title": "Certificate life-cycle follows the documented transition graph", "statement": "Whatever sequence of add_cert / change_cert_state calls (including failing ones) is made on the certificate database, the state reported by get_cert_state for a certificate moves only along the edges: unknown->NOT_CONFIRMED|CONFIRMED (add), NOT_CONFIRMED->CONFIRMED, CONFIRMED|REVIVED->REVOKED, REVOKED->REVIVED, and any->UPDATED|UPDATED_BUT_NOT_CONFIRMED (key update). A rejected call changes nothing.", "quantifier": "every finite history of database API calls, every digest function, every certificate", "why_tests_cant": "the set of histories is infinite; unit tests exercise a handful of one- or two-step transitions", "anchors": ["mock_ca/mock_fun.py: CertificateDB.add_cert, change_cert_state, _process_rev_cert, _process_update_cert, get_cert_state"]}
{"id": "C02", "title": "A revoked certificate stays revoked until it is explicitly revived", "statement": "Once change_cert_state(cert, REVOKED) succeeded, every later state of the certificate is REVOKED until a successful change to REVIVED. (Known deviation: a key-update transition is accepted from the REVOKED state.)", "quantifier": "every history of database calls after the revocation", "why_tests_cant": "needs an invariant over all later histories, including the key-update calls tests never issue on a revoked certificate", "anchors": ["mock_ca/mock_fun.py: CertificateDB.change_cert_state, _process_update_cert"]}
{"id": "C03", "title": "The certificate database is append-only", "statement": "No API call removes or reorders an entry or changes the stored certificate, its digest or its issue date; a failed call leaves the database unchanged; the number of entries grows by exactly one per successful add_cert.", "quantifier": "every history of database API calls", "why_tests_cant": "quantifies over all histories and all positions of the list", "anchors": ["mock_ca/mock_fun.py: CertificateDB.add_cert, change_cert_state"]}
{"id": "C04", "title": "issued / revoked / updated / not-confirmed views partition the database", "statement": "issued_certs lists exactly the certificates whose state is neither NOT_CONFIRMED nor UPDATED_BUT_NOT_CONFIRMED, revoked_certs exactly the REVOKED ones, updated_certs exactly the UPDATED and UPDATED_BUT_NOT_CONFIRMED ones and not_confirmed_certs exactly the NOT_CONFIRMED ones; revoked, updated and not-confirmed never share an entry.", "quantifier": "every reachable database", "why_tests_cant": "a statement about every database content", "anchors": ["mock_ca/mock_fun.py: CertificateDB.issued_certs, revoked_certs, updated_certs, not_confirmed_certs"]}
{"id": "C05", "title": "OCSP answers agree with the certificate database", "statement": "An OCSP request for serial number n answers 'revoked' when some REVOKED certificate has serial n, 'good' when none is revoked/updated and an issued (or extra) certificate has serial n, and 'unauthorized' when no certificate has that serial. (Known deviation: for a certificate that is only updated the query raises instead of answering 'revoked'.)", "quantifier": "every database and every serial number", "why_tests_cant": "the answer depends on the whole database content", "anchors": ["mock_ca/mock_fun.py: CertRevStateDB._check_ocps_request_cert_status, get_ocsp_response, CertificateDB.get_ocsp_response"]}
{"id": "C06", "title": "CRL content and CRL numbers", "statement": "CertificateDB.get_current_crl lists exactly the serial numbers of revoked and updated certificates. CRL numbers of successive CRLs strictly increase. (Known deviations: the number kept by CertificateDB never increases; the /crl endpoint reads a revocation store nothing writes.)", "quantifier": "every database, every sequence of CRL requests interleaved with any requests", "why_tests_cant": "monotonicity over unbounded sequences of requests", "anchors": ["mock_ca/mock_fun.py: CertificateDB.get_current_crl, CertRevStateDB.get_crl_response", "mock_ca/ca_handler.py: CAHandler.get_current_crl"]}
{"id": "C07", "title": "removeFromCRL takes exactly one matching entry off the revocation list", "statement": "After add_rev_entry with reason removeFromCRL the revocation list is the old list without its first entry for that certificate, every other entry is kept in order; any other reason appends; when each certificate is listed at most once the removed certificate is no longer reported as revoked.", "quantifier": "every revocation list and every sequence of add_rev_entry calls", "why_tests_cant": "a statement over all lists, with duplicates", "anchors": ["mock_ca/mock_fun.py: RevokedEntryList.add_entry, remove, is_revoked"]}
{"id": "C08", "title": "A revoked key is recognised in every hybrid/composite packaging", "statement": "contains_key answers true for a key k when some revoked certificate carries k, or a hybrid key having k as a component; and for a hybrid key when it or either component is carried by (or is a component of) a revoked certificate; otherwise false.", "quantifier": "every revocation list, every plain or hybrid key", "why_tests_cant": "combinatorial over packagings of keys", "anchors": ["mock_ca/mock_fun.py: RevokedEntryList.compromised_keys, _contains, contains_key"]}
{"id": "C09", "title": "Requests that carry a compromised key are detected whatever the position of the key", "statement": "check_request_for_compromised_key returns true for an ir/cr/kur/p10cr request iff one of its templates contains a revoked key. (Known deviations: the scan stops at the first template without public key; ccr requests are never scanned.)", "quantifier": "every request with any number of templates", "why_tests_cant": "requests of arbitrary length and order", "anchors": ["mock_ca/mock_fun.py: CertRevStateDB.check_request_for_compromised_key"]}
{"id": "C10", "title": "Key-reuse check is complete and symmetric", "statement": "contains_pub_key(key, sender) is true iff some issued or not-yet-confirmed certificate of the same subject shares the key or a component with it; a key is never reported as used because of a certificate of another subject. (Known deviation: traditional component vs PQ component.)", "quantifier": "every database, key and sender name", "why_tests_cant": "all combinations of plain/hybrid keys", "anchors": ["mock_ca/mock_fun.py: KeySecurityChecker._compare_pub_keys, contains_pub_key, check_cert_status, MockCAState.contains_pub_key"]}
{"id": "C11", "title": "Transaction identifiers are never reused while in use", "statement": "store_transaction_certificate and add_tx_id succeed only for a transaction id that is not in use and mark it in use; an id already in use is always rejected, and the rejected call changes nothing.", "quantifier": "every history of CA-state operations", "why_tests_cant": "all histories, including removal and re-use of ids", "anchors": ["mock_ca/mock_fun.py: MockCAState.add_tx_id, remove_tx_id, store_transaction_certificate"]}
{"id": "C12", "title": "A KEM shared secret authenticates at most one non-confirmation request", "statement": "For KEM-based MAC protection: a request whose transaction id has no stored secret is rejected; once a request under a secret was processed successfully, every later request of that transaction other than certConf is rejected; a failed request leaves the secret usable.", "quantifier": "every sequence of KEM exchanges and requests, every MAC function", "why_tests_cant": "all interleavings of transactions", "anchors": ["mock_ca/mock_fun.py: KEMSharedSecretList.verify_pkimessage_protection, may_update_state, update_shared_secret_state, add_shared_secret"]}
{"id": "C13", "title": "A POP challenge can be answered at most once and only with its own value", "statement": "A popdecr message is accepted only if a challenge is outstanding for that transaction and every response integer equals the stored challenge; after it was processed the same transaction's challenge is gone, so a replayed answer is rejected.", "quantifier": "every sequence of challenges and answers", "why_tests_cant": "all interleavings of transactions and replays", "anchors": ["mock_ca/challenge_handler.py: ChallengeHandler"]}
{"id": "C14", "title": "A stateful-signature leaf index is never accepted twice for a key", "statement": "Along any run of the CA, if a request signed with a stateful hash-based key was accepted with leaf index i, no later request under the same key with index i is accepted; an index outside the key's range is never accepted.", "quantifier": "every history of requests, keys and indices", "why_tests_cant": "double use may be separated by arbitrarily many requests", "anchors": ["mock_ca/stfl_validator.py", "mock_ca/operation_dbs.py: StatefulSigState"]}
{"id": "C15", "title": "certConf is accepted only for the transaction it belongs to, once", "statement": "process_cert_conf answers pkiConf only if the transaction id has certificates waiting, the nonces match the CA's response and each certHash matches an issued certificate; afterwards the certificates are CONFIRMED, the transaction is closed and a second certConf for it is rejected.", "quantifier": "every history of cert requests and certConf messages", "why_tests_cant": "interleaving of many transactions, replays, partial rejections", "anchors": ["mock_ca/cert_conf_handler.py: CertConfHandler, CertConfState"]}
{"id": "C16", "title": "Revoked or updated certificates cannot sign new requests", "statement": "is_not_allowed_to_request raises for every request signed by a certificate that is revoked, or updated (except the cases the timeout rules allow), for every body type, and does not raise for a confirmed certificate.", "quantifier": "every database, body type, time", "why_tests_cant": "all combinations of state, body and time stamps", "anchors": ["mock_ca/rev_handler.py: RevocationHandler.is_not_allowed_to_request", "mock_ca/mock_fun.py: UpdateCertDB.validate_is_updated"]}
{"id": "C17", "title": "Revocation requests are all-or-nothing and only affect the named certificates", "statement": "Processing an rr message with revocation reason moves the named confirmed certificates to REVOKED, with removeFromCRL moves revoked ones to REVIVED; certificates not named keep their state; a request that is refused changes nothing.", "quantifier": "every database and every rr message with any number of entries", "why_tests_cant": "arbitrary number of entries, some valid and some not", "anchors": ["mock_ca/rev_handler.py: RevocationHandler.process_revocation_request, mark_as_revoked, revive_cert"]}
{"id": "C18", "title": "Nested messages are dispatched by the number of inner messages", "statement": "A nested message with no inner message is refused, with exactly one is treated as added protection and with two or more as batch whose response contains one response per inner request, in order; batched nonces and transaction ids must be pairwise distinct.", "quantifier": "every nested message with any number of inner messages", "why_tests_cant": "unbounded batches", "anchors": ["mock_ca/nested_handler.py: NestedHandler.process_nested_request, _check_nonces, process_batched_request"]}
{"id": "C19", "title": "Error responses are bound to the request", "statement": "Whatever request fails, the response echoes the request's transactionID and sets recipNonce to the request's senderNonce; the body is the response type of the request or an error message, and the failure bits are those of the raised error.", "quantifier": "every request and every exception", "why_tests_cant": "all failure paths", "anchors": ["mock_ca/ca_handler.py: CAHandler.process_normal_request, _build_error_from_exception"]}
{"id": "C20", "title": "Key-update history is a chain inside the database", "statement": "get_updated_history returns a list that starts with the certificate, in which each next certificate is the stored replacement of the previous one, of at most eleven elements, whatever cycles the database contains.", "quantifier": "every database content", "why_tests_cant": "cyclic and long chains", "anchors": ["mock_ca/mock_fun.py: CertificateDB.get_updated_history"]}
{"id": "C21", "title": "ML-KEM byte encoding round-trips", "statement": "byte_decode(byte_encode(f, d), d) = f for every list of 256 integers below 2^d (below q for d = 12) and byte_encode(byte_decode(b, d), d) = b for every byte string of 32*d bytes (d < 12); bits_to_bytes and bytes_to_bits are mutually inverse.", "quantifier": "all polynomials, all byte strings, all d in 1..12", "why_tests_cant": "2^3072 inputs", "anchors": ["pq_logic/fips/fips203.py: bits_to_bytes, bytes_to_bits, byte_encode, byte_decode"]}
{"id": "C22", "title": "ML-KEM compression error bound", "statement": "For every x in Z_q and d < 12, decompress(compress(x)) differs from x modulo q by at most round(q / 2^(d+1)), and compress(decompress(y)) = y for every y < 2^d.", "quantifier": "all field elements and all d", "why_tests_cant": "must hold for every coefficient, otherwise decryption fails silently", "anchors": ["pq_logic/fips/fips203.py: compress, decompress"]}
{"id": "C23", "title": "ML-KEM NTT is inverted by the inverse NTT", "statement": "ntt_inverse(ntt(f)) = f for every polynomial with 256 coefficients in [0,q).", "quantifier": "all 3329^256 polynomials", "why_tests_cant": "linear maps cannot be sampled to certainty against table typos", "anchors": ["pq_logic/fips/fips203.py: ntt, ntt_inverse, ML_KEM_ZETA_NTT"]}
{"id": "C24", "title": "ML-KEM NTT multiplication is ring multiplication", "statement": "ntt_inverse(multiply_ntts(ntt(f), ntt(g))) is the product of f and g in Z_q[X]/(X^256+1).", "quantifier": "all pairs of polynomials", "why_tests_cant": "bilinear identity over 3329^512 pairs", "anchors": ["pq_logic/fips/fips203.py: multiply_ntts, ML_KEM_ZETA_MUL"]}
{"id": "C25", "title": "ML-KEM sampling stays in range", "statement": "sample_poly_cbd returns 256 coefficients each congruent to a value in [-eta, eta], and sample_ntt returns 256 coefficients in [0,q), whatever the byte stream.", "quantifier": "all byte strings / XOF streams", "why_tests_cant": "all byte strings", "anchors": ["pq_logic/fips/fips203.py: sample_poly_cbd, sample_ntt"]}
{"id": "C26", "title": "ML-KEM decapsulation inverts encapsulation", "statement": "decaps(dk, c) = K whenever (K, c) = encaps(ek, m) for the matching key pair and the accumulated decryption noise is below q/4 (the FIPS 203 failure event is excluded); key generation succeeds unless an XOF stream runs out, keys have the standard sizes and the private key yields its public key.", "quantifier": "all seeds d, z, messages m, all hash/XOF functions, all three parameter sets", "why_tests_cant": "cryptographic-size input space", "anchors": ["pq_logic/fips/fips203.py: keygen_internal, encaps_internal, decaps_internal, k_pke_keygen, k_pke_encrypt, k_pke_decrypt"]}
{"id": "C27", "title": "ML-KEM implicit rejection", "statement": "decaps never fails on a well-sized ciphertext: it returns either the re-encryption-confirmed key or exactly J(z || c); a ciphertext that is not the re-encryption of its decryption yields J(z || c).", "quantifier": "all ciphertexts of the right length, valid or not", "why_tests_cant": "all ciphertexts", "anchors": ["pq_logic/fips/fips203.py: decaps_internal"]}
{"id": "C28", "title": "ML-DSA integer/bit packing round-trips", "statement": "simple_bit_unpack(simple_bit_pack(w, b), b) = w for coefficients in [0,b], bit_unpack(bit_pack(w, a, b), a, b) = w for coefficients in [-a,b]; integer_to_bits / bits_to_integer / bits_to_bytes / bytes_to_bits are inverse.", "quantifier": "all polynomials and all bounds", "why_tests_cant": "astronomical domain", "anchors": ["pq_logic/fips/fips204.py: simple_bit_pack, bit_pack, simple_bit_unpack, bit_unpack"]}
{"id": "C29", "title": "ML-DSA hint encoding is injective and rejects malformed input", "statement": "hint_bit_unpack(hint_bit_pack(h)) = h for every hint of weight at most omega, and every byte string accepted by hint_bit_unpack re-encodes to itself (so hints cannot be mauled).", "quantifier": "all hints and all byte strings of length omega+k", "why_tests_cant": "strong unforgeability depends on it for every string", "anchors": ["pq_logic/fips/fips204.py: hint_bit_pack, hint_bit_unpack"]}
{"id": "C30", "title": "ML-DSA key and signature codecs round-trip", "statement": "pk_decode(pk_encode(x)) = x, sk_decode(sk_encode(x)) = x and sig_decode(sig_encode(x)) = x for all in-range components, and the encodings have the lengths the standard prescribes.", "quantifier": "all keys and signatures, all three parameter sets", "why_tests_cant": "astronomical domain", "anchors": ["pq_logic/fips/fips204.py: pk_encode, pk_decode, sk_encode, sk_decode, sig_encode, sig_decode"]}
{"id": "C31", "title": "ML-DSA rounding functions satisfy their defining equations", "statement": "power2round and decompose return (r1, r0) with r = r1*2^d + r0, r = r1*alpha + r0 (mod q) and r0 in the prescribed centred range; use_hint(make_hint(z, r), r) = high_bits(r + z) when |z| <= gamma2.", "quantifier": "all r, z in Z_q and both gamma2 values", "why_tests_cant": "q^2 pairs", "anchors": ["pq_logic/fips/fips204.py: modpm, power2round, decompose, high_bits, low_bits, make_hint, use_hint"]}
{"id": "C32", "title": "ML-DSA NTT is inverted by the inverse NTT and is multiplicative", "statement": "ntt_inverse(ntt(w)) = w modulo q and ntt_inverse(mul_ntt(ntt(f), ntt(g))) is the negacyclic product of f and g.", "quantifier": "all polynomials", "why_tests_cant": "table typos and reduction errors", "anchors": ["pq_logic/fips/fips204.py: ntt, ntt_inverse, mul_ntt, ML_DSA_ZETAS"]}
{"id": "C33", "title": "ML-DSA signatures verify", "statement": "Every signature returned by sign (for any key pair, message, context of at most 255 bytes and randomness) is accepted by verify under the matching public key with the same message and context; contexts longer than 255 bytes are refused on both sides.", "quantifier": "all seeds, messages, contexts, randomness and XOFs", "why_tests_cant": "cryptographic-size input space, rejection loop", "anchors": ["pq_logic/fips/fips204.py: sign, verify, sign_internal, verify_internal, keygen_internal"]}
{"id": "C34", "title": "SLH-DSA base-2^b digits", "statement": "base_2b returns out_len digits below 2^b which are the leading bits of the byte string; to_int/to_byte are inverse.", "quantifier": "all byte strings and all b, out_len", "why_tests_cant": "all strings", "anchors": ["pq_logic/fips/fips205.py: base_2b, to_int, to_byte"]}
{"id": "C35", "title": "SLH-DSA signatures verify", "statement": "slh_verify accepts every signature produced by slh_sign for the matching key, message and context; WOTS+, XMSS, hypertree and FORS public keys recomputed from signatures equal the generated ones, for every hash function.", "quantifier": "all keys, messages, contexts, all 12 parameter sets and all hash functions", "why_tests_cant": "trees of height up to 68 cannot be enumerated", "anchors": ["pq_logic/fips/fips205.py: slh_sign_internal, slh_verify_internal, ht_sign, ht_verify, xmss_sign, wots_sign, fors_sign"]}
{"id": "C36", "title": "SLH-DSA pre-hash signatures verify", "statement": "hash_slh_verify accepts what hash_slh_sign produced. (Known deviation: arguments to the internal signer are swapped.)", "quantifier": "all keys, messages, contexts", "why_tests_cant": "all inputs", "anchors": ["pq_logic/fips/fips205.py: hash_slh_sign, hash_slh_verify"]}
{"id": "C37", "title": "SLH-DSA address fields are independent", "statement": "Setting one address field does not disturb any other field that the address type uses; set_type_and_clear zeroes exactly the type-specific fields; compressed addresses of different nodes differ.", "quantifier": "all addresses and field values in range", "why_tests_cant": "collisions between addresses cannot be sampled", "anchors": ["pq_logic/fips/fips205.py: ADRS"]}
{"id": "C38", "title": "FrodoKEM packing and encoding round-trip", "statement": "unpack(pack(M)) = M for entries below 2^D and decode(encode(m) + E) = m whenever every noise entry is smaller than q/2^(B+1).", "quantifier": "all matrices, all messages and noise", "why_tests_cant": "all matrices", "anchors": ["pq_logic/fips/frodokem.py: pack, unpack, encode, decode"]}
{"id": "C39", "title": "FrodoKEM decapsulation inverts encapsulation", "statement": "kem_decaps(sk, ct) = ss whenever (ct, ss) = kem_encaps(pk) under the matching key and the noise is below the decoding threshold; a ciphertext whose re-encryption differs yields the implicit-rejection secret.", "quantifier": "all seeds, hash functions, parameter sets", "why_tests_cant": "cryptographic-size input space", "anchors": ["pq_logic/fips/frodokem.py: kem_keygen, kem_encaps, kem_decaps"]}
{"id": "C40", "title": "Hybrid and composite KEMs agree on the secret", "statement": "For X-Wing, Chempat, composite KEM: decaps of an honest encapsulation returns the same shared secret for any correct component KEMs, and the ciphertext splits uniquely into its components.", "quantifier": "all component KEMs, keys, ciphertexts", "why_tests_cant": "all component implementations", "anchors": ["pq_logic/keys/xwing.py", "pq_logic/keys/chempat_key.py", "pq_logic/keys/composite_kem.py"]}
{"id": "C41", "title": "Composite signatures need both components", "statement": "CompositeSig verify accepts iff both component signatures verify on the domain-separated message; sign then verify succeeds; the message representative is injective in (context, message-digest) for a fixed algorithm.", "quantifier": "all messages, contexts and component schemes", "why_tests_cant": "all inputs", "anchors": ["pq_logic/keys/composite_sig.py"]}
{"id": "C42", "title": "HSS/LMS configurations: level rules and leaf index", "statement": "The index read from an HSS signature is its position among all signatures of the key: the mixed-radix number of the per-level leaf numbers, different for different leaves, one more for the next signature; signatures of another depth or with a leaf outside the tree are refused. validate_hss_key_levels accepts exactly the lists of one to eight levels with one hash function, output size and Winternitz parameter. A public key is loaded iff its codes name one parameter set and its length fits, and sig_size is the length of its signatures.", "quantifier": "all signatures and level lists", "why_tests_cant": "all level counts", "anchors": ["pq_logic/keys/stateful_sig_keys.py: compute_hss_signature_index", "pq_logic/keys/hss_validation.py"]}
{"id": "C43", "title": "Nonce-diversity keyword decides exactly pairwise Hamming distance", "statement": "nonces_must_be_diverse passes iff every two nonces differ in at least the given number of bit positions; nonces_must_be_unique passes iff no two nonces are equal.", "quantifier": "all lists of nonces", "why_tests_cant": "all lists", "anchors": ["resources/utils.py: nonces_must_be_diverse, nonces_must_be_unique"]}
{"id": "C44", "title": "Manipulating a signature or MAC always changes it", "statement": "manipulate_first_byte returns a string of the same length that differs from its argument in exactly the first byte; only the empty string is refused; applying it twice gives the original back exactly if the first byte is 0 or 1.", "quantifier": "all byte strings", "why_tests_cant": "all byte strings", "anchors": ["resources/utils.py: manipulate_first_byte"]}
{"id": "C45", "title": "Header binding checks", "statement": "validate_transaction_id / validate_sender_and_recipient_nonce pass iff the response carries the request's transactionID and recipNonce equals the request's senderNonce (with the length rules).", "quantifier": "all header pairs", "why_tests_cant": "all header pairs", "anchors": ["resources/checkutils.py: validate_transaction_id, validate_sender_and_recipient_nonce"]}
{"id": "C46", "title": "Certificate-chain construction", "statement": "build_chain_from_list returns a list that starts with the end-entity certificate, in which every certificate is issued by its successor, of bounded length and without endless loops.", "quantifier": "all certificate pools including cyclic ones", "why_tests_cant": "all pools", "anchors": ["resources/certutils.py: build_chain_from_list, build_cmp_chain_from_pkimessage"]}
{"id": "C47", "title": "Certificates handed out are recorded, refused requests leave the database unchanged", "statement": "If the CA answers a certificate request (ir, cr, kur, p10cr, ccr) positively, every certificate in the response is afterwards in the certificate database, as confirmed if the response grants implicit confirmation and as not confirmed otherwise, and nothing else was added; if it answers negatively the database is unchanged.", "quantifier": "every state of the CA, every request, every outcome of the checks that are not part of the bookkeeping", "why_tests_cant": "failure may strike at any point of the processing, in any state", "anchors": ["mock_ca/cert_req_handler.py: CertReqHandler.process_after_request, process_cert_request", "mock_ca/mock_fun.py: MockCAState.add_certs, add_may_update_cert"]}
{"id": "C48", "title": "The state of a certificate changes only on the authority of a suitable message", "statement": "Whatever request the CA receives (nested ones included), a certificate whose state differs afterwards was moved by a message of the right type: into the database by a certificate request, to CONFIRMED by a certConf or a request with implicit confirmation, to REVOKED or REVIVED by an rr, to UPDATED by a kur signed with it or the certConf of such an update.", "quantifier": "every history of requests, every further request, every certificate", "why_tests_cant": "a forbidden transition may need a long history and a nested message", "anchors": ["mock_ca/ca_handler.py: CAHandler.process_normal_request", "mock_ca/mock_fun.py: MockCAState"]}
{"id": "C49", "title": "Serving requests never loses or rewrites a database entry", "statement": "Along any history of requests the entries of the certificate database stay in place with the same certificate, digest and issue date; new entries are only appended.", "quantifier": "every two histories, the second continuing the first", "why_tests_cant": "all histories", "anchors": ["mock_ca/ca_handler.py: CAHandler.process_normal_request", "mock_ca/mock_fun.py: CertificateDB"]}
{"id": "C50", "title": "ML-DSA verification decides the FIPS 204 equation", "statement": "For a public key and a signature of the standard lengths, verify returns True exactly when the decoded z is short, the hint is well-formed and the challenge equals H(mu || w1Encode(UseHint(h, A z - c t1 2^d))) computed in the coefficient ring; a truncated signature is never accepted. (Bytes after the signature are ignored: the function has no length check of its own.)", "quantifier": "all public keys, messages, contexts, signatures, hash functions and parameter sets", "why_tests_cant": "no accepted forgery shows up by testing; soundness needs every input", "anchors": ["pq_logic/fips/fips204.py: verify, verify_internal, sig_decode"]}
{"id": "C51", "title": "ML-DSA sampled values have the prescribed shape", "statement": "sample_in_ball returns 256 coefficients of which exactly tau are nonzero, each 1 or -1; rejection sampling returns 256 coefficients in [0,q) or [-eta,eta]; expand_mask returns coefficients in (-gamma1, gamma1].", "quantifier": "all byte streams", "why_tests_cant": "a wrong loop bound would show up only on rare streams", "anchors": ["pq_logic/fips/fips204.py: sample_in_ball, rej_ntt_poly, rej_bounded_poly, expand_mask"]}
{"id": "C52", "title": "ML-DSA contexts, messages and modes are never confused", "statement": "The string that is signed determines whether the message was pre-hashed, the context, the pre-hash function, and the message or its digest: no two different (mode, context, message) triples are signed as the same string.", "quantifier": "all contexts of at most 255 bytes, all messages, all pre-hash functions", "why_tests_cant": "a collision between two formats can hide behind any pair of inputs", "anchors": ["pq_logic/fips/fips204.py: sign, verify, hash_ml_dsa_sign, hash_ml_dsa_verify"]}
{"id": "C53", "title": "SLH-DSA digit vectors of different messages are incomparable", "statement": "The base-w digits plus checksum that a WOTS+ signature encodes never dominate each other: for two different messages each vector has a position where it is strictly smaller than the other, so a signature on one message cannot be advanced into a signature on another.", "quantifier": "all pairs of different n-byte messages, all twelve parameter sets", "why_tests_cant": "all pairs of messages", "anchors": ["pq_logic/fips/fips205.py: wots_sign, wots_pk_from_sig"]}
{"id": "C54", "title": "An accepted SLH-DSA signature is the key owner's, or breaks the hash", "statement": "If slh_verify accepts a signature under a generated key then its FORS and hypertree parts are exactly those the key owner computes for that message and randomiser, or one of the hash inputs of this verification is a second preimage of the key owner's input at the same address, or the signature contains a chain value that precedes the one the key owner reveals.", "quantifier": "all generated keys, messages, signatures and hash functions, all twelve parameter sets", "why_tests_cant": "unforgeability cannot be tested", "anchors": ["pq_logic/fips/fips205.py: slh_verify_internal, ht_verify, xmss_pk_from_sig, wots_pk_from_sig, fors_pk_from_sig"]}
{"id": "C55", "title": "SLH-DSA contexts, messages and modes are never confused", "statement": "The string that is signed determines whether the message was pre-hashed, the context, the pre-hash function, and the message or its digest.", "quantifier": "all contexts of at most 255 bytes, all messages, all pre-hash functions", "why_tests_cant": "a collision between two formats can hide behind any pair of inputs", "anchors": ["pq_logic/fips/fips205.py: slh_sign, slh_verify, hash_slh_sign, hash_ml_dsa_verify"]}
{"id": "C56", "title": "SLH-DSA hash inputs are the prescribed ones and never ambiguous", "statement": "For every parameter set the tweakable hashes, the pseudo-random functions and the message hash are the SHA-2 or SHAKE constructions of FIPS 205 section 11 (including MGF1 and HMAC), and the string handed to the hash determines the public seed, every field of the address and the hashed value.", "quantifier": "all twelve parameter sets, all seeds, addresses and messages", "why_tests_cant": "two addresses that collide after compression would not show in any test vector", "anchors": ["pq_logic/fips/fips205.py: shake_*, sha2_*, ADRS.adrsc"]}
{"id": "C57", "title": "Which byte strings are private keys", "statement": "from_private_bytes of the ML-KEM, ML-DSA and SLH-DSA key classes accepts exactly the standard's seed length, expanded-key length and their sum and raises InvalidKeyData for every other length; the key it returns has the algorithm asked for and keys of the standard sizes; the seed, the expanded key, and seed followed by expanded key of a generated key all load to that key, with the seed kept where it was present.", "quantifier": "all byte strings, all ML-KEM, ML-DSA and SLH-DSA parameter sets, all hash functions", "why_tests_cant": "all byte strings, all parameter sets", "anchors": ["pq_logic/keys/kem_keys.py: MLKEMPrivateKey", "pq_logic/keys/sig_keys.py: MLDSAPrivateKey, SLHDSAPrivateKey", "pq_logic/keys/pq_key_factory.py: PQKeyFactory.from_private_bytes"]}
{"id": "C58", "title": "Saved post-quantum keys load again as the same key", "statement": "Saving a generated key as OneAsymmetricKey with any save type (version 1, or version 0 without public key) and loading the result gives the same key, with the seed where the save type contains it; a key loaded without seed survives saving as RAW; private_bytes in DER form can be loaded again unless an ML-KEM or ML-DSA key starts with one of three bytes.", "quantifier": "all generated keys of all parameter sets, all save types", "why_tests_cant": "a key whose random bytes look like DER fails only once in many keys", "anchors": ["pq_logic/keys/pq_key_factory.py: PQKeyFactory.save_private_key_one_asym_key, PQKeyFactory.from_one_asym_key, PQKeyFactory._load_ml_private_key", "pq_logic/keys/abstract_wrapper_keys.py: PQPrivateKey._export_private_key", "pq_logic/combined_factory.py: CombinedKeyFactory.load_private_key_from_one_asym_key"]}
{"id": "C59", "title": "A seed and an expanded key that do not belong together are refused", "statement": "If a private key is loaded from a seed together with an expanded key, loading succeeds only if the expanded key is the one generated from the seed.", "quantifier": "all seeds and expanded keys of the right lengths", "why_tests_cant": "all pairs of seed and expanded key", "anchors": ["pq_logic/keys/kem_keys.py: MLKEMPrivateKey.from_private_bytes", "pq_logic/keys/sig_keys.py: MLDSAPrivateKey.from_private_bytes, SLHDSAPrivateKey.from_private_bytes", "pq_logic/keys/pq_key_factory.py: PQKeyFactory._load_ml_private_key"]}
{"id": "C60", "title": "An attached public key is the private key's own", "statement": "A OneAsymmetricKey that carries a non-empty public key is loaded only if this is the public key of the private key in it; otherwise MismatchingKey is raised.", "quantifier": "all OneAsymmetricKey structures for ML-KEM, ML-DSA and SLH-DSA", "why_tests_cant": "all structures", "anchors": ["pq_logic/keys/pq_key_factory.py: PQKeyFactory.from_one_asym_key, PQKeyFactory._load_and_validate_public_key"]}
{"id": "C61", "title": "The ML-DSA public key computed from a private key is the generated one", "statement": "For every seed, recomputing the public key from the expanded private key gives the public key that key generation returned.", "quantifier": "all seeds, all three parameter sets, all hash functions", "why_tests_cant": "a rounding slip would affect only some coefficients of some keys", "anchors": ["pq_logic/keys/sig_keys.py: MLDSAPrivateKey._derive_public_key"]}
{"id": "C62", "title": "Loaded keys work", "statement": "With a key object loaded from any form of a generated key: what encaps produces decaps recovers (if decryption does not fail, see C26), what sign produces verify accepts, in pure and in pre-hash mode and whether the caller or the library hashes; unsupported hash algorithms do not lead to pre-hash signatures; the signed string determines mode, context, hash algorithm and data.", "quantifier": "all generated keys, messages, contexts and hash algorithms", "why_tests_cant": "all keys and messages", "anchors": ["pq_logic/keys/kem_keys.py: MLKEMPublicKey.encaps, MLKEMPrivateKey.decaps", "pq_logic/keys/sig_keys.py: MLDSAPrivateKey.sign, MLDSAPublicKey.verify, SLHDSAPrivateKey.sign, SLHDSAPublicKey.verify"]}
{"id": "C63", "title": "messageTime check", "statement": "check_message_time_field passes iff messageTime is present whenever confirmWaitTime is, and (if an interval is given) messageTime lies within the interval before now, or, with a request, not later than the interval after the request time.", "quantifier": "all messages, clocks, intervals and request times", "why_tests_cant": "all times and intervals, including the exact boundaries", "anchors": ["resources/checkutils.py: check_message_time_field, check_message_time_for_request"]}
{"id": "C64", "title": "generalInfo checks", "statement": "The generalInfo check passes iff implicitConfirm is NULL and only in certificate requests and responses, confirmWaitTime is a DER time in the future and not together with implicitConfirm, and certProfile only occurs in requests that may carry it; the CA accepts one profile name per request.", "quantifier": "all messages and all generalInfo lists", "why_tests_cant": "all lists of entries, repeated ones included", "anchors": ["resources/checkutils.py: check_generalinfo, check_implicitconfirm, check_confirmwaittime, check_certprofile", "resources/checkutils.py: validate_cert_profile_for_ca"]}
{"id": "C65", "title": "sender and senderKID fit the protection", "statement": "With signature protection the sender check passes iff the sender names the subject of the first extra certificate and the senderKID check passes iff senderKID is its subject key identifier; with MAC protection iff the sender is a directory name with a commonName and senderKID is that commonName.", "quantifier": "all messages, names and certificates", "why_tests_cant": "all names and certificates", "anchors": ["resources/checkutils.py: check_sender_cmp_protection, validate_senderkid, verify_sender_field_for_mac, verify_senderkid_for_mac, check_is_protection_present", "resources/utils.py: get_openssl_name_notation"]}
{"id": "C66", "title": "Identifiers in a nested request are fresh", "statement": "The uniqueness check of a nested message passes iff transactionID, senderNonce (and recipNonce, if asked) are set in the outer and every inner message, pairwise different and 16 bytes long, as far as each of these checks is switched on.", "quantifier": "all nested messages with any number of inner messages", "why_tests_cant": "all batch sizes", "anchors": ["resources/checkutils.py: validate_nested_message_unique_nonces_and_ids"]}
{"id": "C67", "title": "Added protection repeats the identifiers", "statement": "validate_add_protection_tx_id_and_nonces passes iff the nested message holds exactly one message with the same transactionID and nonces, and recipNonce is present exactly for certConf.", "quantifier": "all nested messages", "why_tests_cant": "all messages", "anchors": ["resources/checkutils.py: validate_add_protection_tx_id_and_nonces"]}
{"id": "C68", "title": "A nested response answers every inner request", "statement": "If the nested-response check passes, the response is a batch of the same size bound to the request and every inner request has an inner reply with its transactionID, its nonce and an allowed body; and every such honest response passes.", "quantifier": "all pairs of nested messages", "why_tests_cant": "all batch sizes and orders", "anchors": ["resources/checkutils.py: validate_ids_and_nonces_for_nested_response"]}
{"id": "C69", "title": "Body types of responses", "statement": "validate_cmp_body_types passes iff the response body is the answer to the request body (or an error where errors are allowed), looking through added protection and comparing batches entry by entry.", "quantifier": "all pairs of messages, nested to any depth", "why_tests_cant": "all nesting depths", "anchors": ["resources/checkutils.py: validate_cmp_body_types"]}
{"id": "C70", "title": "Identifiers and integrity of a request", "statement": "The request check of the CA passes iff transactionID and senderNonce are 16 bytes long and recipNonce is absent, or, for a certConf, 16 bytes and matching the previous response; the integrity check passes iff messages that need a signature have one.", "quantifier": "all requests and previous responses", "why_tests_cant": "all requests", "anchors": ["resources/checkutils.py: validate_request_message_nonces_and_tx_id", "resources/checkutils.py: validate_wrong_integrity"]}
{"id": "C71", "title": "The header check is the conjunction of its parts", "statement": "validate_pkimessage_header passes iff the version is 2 or 3, the protection is present as required and sender, senderKID, generalInfo, messageTime and the binding to the request all pass; no failing part is overlooked.", "quantifier": "all responses, requests and options", "why_tests_cant": "all combinations of failing parts", "anchors": ["resources/checkutils.py: validate_pkimessage_header"]}
{"id": "C72", "title": "Order of a chain in extraCerts", "statement": "check_single_chain_is_ordered returns True iff all certificates of the chain are in extraCerts and every issuer directly follows its certificate or comes earlier.", "quantifier": "all lists of extra certificates and all chains", "why_tests_cant": "all orders of all lists", "anchors": ["resources/checkutils.py: check_single_chain_is_ordered, _prepare_indicies, _get_cert_index"]}
{"id": "C73", "title": "extraCerts validation", "statement": "validate_extra_certs accepts a certificate response iff extraCerts contains the issuer of the new certificate, this issuer passes the extended key usage check, and a signed message verifies with the chain of its signer in order; other messages iff their protection does; absent extraCerts only where allowed.", "quantifier": "all messages and certificate pools", "why_tests_cant": "all pools", "anchors": ["resources/checkutils.py: validate_extra_certs, _check_cmp_protection_for_extra_certs, find_right_cert_pos"]}
{"id": "C74", "title": "Trust decisions", "statement": "certificates_must_be_trusted accepts a chain iff its last certificate is byte for byte one of the trust anchors, the chain verifies and the first certificate has the requested key usage; certificates_are_trustanchors accepts iff every certificate is an anchor; a CRL chain starts with a certificate of the CRL issuer's name whose key verifies the CRL and continues along issuers.", "quantifier": "all chains, trust stores and options", "why_tests_cant": "all stores", "anchors": ["resources/certutils.py: certificates_must_be_trusted, certificates_are_trustanchors, load_truststore, cert_in_list, build_crl_chain_from_list, find_crl_signer_cert"]}
{"id": "C75", "title": "Composite signature keys survive saving and loading", "statement": "A composite public key exported as SubjectPublicKeyInfo and loaded under its identifier is the same key; a private key saved with its seed and loaded, with or without its public key, is the same key; a loaded private key is of the combination its identifier names, read completely, and a public key stored with it must be its own; a loaded public key is of the combination its identifier names.", "quantifier": "all keys, all 18 combinations, all byte strings and all library behaviours", "why_tests_cant": "all inputs", "anchors": ["pq_logic/combined_factory.py: CombinedKeyFactory._load_composite_sig_key, _load_composite_sig_from_private_bytes, _load_composite_sig_from_public_bytes, load_private_key_from_one_asym_key", "pq_logic/keys/hybrid_key_factory.py: HybridKeyFactory._save_keys_with_support_seed, save_private_key_one_asym_key"]}
{"id": "C76", "title": "Traditional key encapsulation", "statement": "DHKEM, plain ECDH, RSA-OAEP and RSA-KEM: decapsulating what was encapsulated to the public key of a private key returns the encapsulated secret; DHKEM derives the secret of RFC 9180, RSA-KEM accepts exactly the ciphertexts of the length of the modulus with a value below it, and KDF3 returns exactly the requested number of bytes.", "quantifier": "all keys, randomness, ciphertexts, secret lengths and library behaviours with symmetric Diffie-Hellman", "why_tests_cant": "all keys and random values, all byte strings", "anchors": ["pq_logic/keys/trad_kem_keys.py: DHKEMPublicKey, DHKEMPrivateKey, RSAEncapKey, RSADecapKey", "pq_logic/kem_mechanism.py: DHKEMRFC9180, ECDHKEM, RSAKem, RSAOaepKem", "resources/cryptoutils.py: compute_kdf3"]}
{"id": "C77", "title": "Hybrid key encapsulation keys survive saving and loading", "statement": "A structure is loaded as an X-Wing, Chempat or composite key iff its version allows its fields, its identifier is one of the listed ones and its bytes are the described concatenation, read completely; the result is of the algorithm the identifier names; a stored public key must be that of the private key; a key that is saved and loaded is the same key, and public keys exported as SubjectPublicKeyInfo load as themselves.", "quantifier": "all identifiers, versions, byte strings, keys, export forms and library behaviours", "why_tests_cant": "all byte strings and keys", "anchors": ["pq_logic/combined_factory.py: CombinedKeyFactory.load_private_key_from_one_asym_key, load_public_key_from_spki, _load_composite_kem_from_private_bytes, _load_composite_kem_public_key, _decode_composite_kem", "pq_logic/keys/hybrid_key_factory.py: HybridKeyFactory.from_one_asym_key, save_private_key_one_asym_key, _save_keys_with_support_seed", "pq_logic/keys/xwing.py: XWingPrivateKey.from_private_bytes", "pq_logic/keys/chempat_key.py: ChempatPublicKey.from_public_bytes"]}
{"id": "C78", "title": "Changing stateful signatures", "statement": "manipulate_pq_stateful_signature_bytes with manipulate_sig=True changes exactly one byte behind the index field and leaves the index; with manipulate_sig=False it changes only the index field of the (lowest) tree, accepts exactly the numbers that fit, and the index read back from the result is the number given; without a number, the result is out of range for the tree.", "quantifier": "all signatures, keys, parameter sets, levels and indices", "why_tests_cant": "all byte strings and numbers", "anchors": ["resources/utils.py: manipulate_pq_stateful_signature_bytes, _manipulate_stateful_signature_payload, _manipulate_hss_lms_signature, _get_default_lms_max_sig_size", "resources/keyutils.py: get_pq_stateful_sig_index_from_sig"]}
{"id": "C79", "title": "Moving and exhausting stateful private keys", "statement": "modify_pq_stateful_sig_private_key replaces exactly the index of the key: the secret values and the public key stay, the next signature has the requested index, an index that does not fit is refused; without index no signature is left, last_index leaves one; used_index returns a recorded earlier state of the key.", "quantifier": "all keys, indices and recorded states", "why_tests_cant": "all key states", "anchors": ["resources/keyutils.py: modify_pq_stateful_sig_private_key, _get_index", "pq_logic/keys/stateful_sig_keys.py: XMSSPrivateKey._change_index, XMSSMTPrivateKey._change_index"]}
{"id": "C80", "title": "Loading stateful signature keys", "statement": "An XMSS or XMSS^MT public key is accepted iff its number is registered and its length is that of the parameter set, anything else is InvalidKeyData; the public key of a secret key consists of the identifier and the two public values of the secret key, and loads as the same key; a certificate template with a stateful key is accepted iff it has no parameters, the right identifier, an approved hash function or one to eight HSS levels.", "quantifier": "all byte strings, parameter sets and secret keys", "why_tests_cant": "all byte strings", "anchors": ["pq_logic/keys/stateful_sig_keys.py: XMSSPublicKey.from_public_bytes, XMSSMTPublicKey.from_public_bytes, XMSSPrivateKey.from_private_bytes, XMSSMTPrivateKey.from_private_bytes, _xmss_liboqs_sk_to_pk", "resources/ca_ra_utils.py: _validate_pq_hash_stateful_sig_pub_key, is_nist_approved_xmss, is_nist_approved_xmssmt"]}
{"id": "C81", "title": "Testing bits by index and by name", "statement": "is_bit_set with an index, a decimal string or a list of decimal strings is true iff (one of) the bits is set, with exclusive=True iff (one of) the bits is the only one set; with a comma-separated list of names, spaces allowed, it is true iff one of the named bits is set; with one name and exclusive=True iff the named bit is the only one; unknown names and missing values are a ValueError.", "quantifier": "all bit strings, indices, name tables, lists of names and spacings", "why_tests_cant": "all bit strings and all texts", "anchors": ["resources/asn1utils.py: is_bit_set, _is_bit_set_in_bitstring, _is_either_bit_set_in_bitstring"]}
{"id": "C82", "title": "Names and bits correspond", "statement": "get_set_bitstring_names returns the names of the set bits in order and determines the set of named bits; asn1_names_to_bitstring sets exactly the named bits, without trailing zero bits, and refuses unknown names; it agrees with the constructor of the ASN.1 library; turning names to bits and back gives the names once, in the order of the bits.", "quantifier": "all name tables, bit strings and lists of names", "why_tests_cant": "all bit strings and texts", "anchors": ["resources/asn1utils.py: get_set_bitstring_names, asn1_names_to_bitstring"]}
{"id": "C83", "title": "Key usage is checked at four levels of strictness", "statement": "validate_key_usage passes iff the certificate's extension is what the strictness asks for: anything (NONE); all requested usages if there is an extension (LAX); all requested usages (STRICT); exactly the requested usages (ABS_STRICT); otherwise BadKeyUsage. Levels are given as numbers, decimal strings or labels in any case. An extension built by prepare_key_usage_extension passes every level for the same usages; must_not_contain_key_usage refuses a certificate that has one of the given usages.", "quantifier": "all certificates' key usage bits, all lists of usages, all levels", "why_tests_cant": "2^9 usages times all texts", "anchors": ["resources/certutils.py: validate_key_usage, must_not_contain_key_usage, _validate_key_usage", "resources/certbuildutils.py: prepare_key_usage_extension", "resources/suiteenums.py: KeyUsageStrictness"]}
{"id": "C84", "title": "CMP extended key usage is checked at four levels of strictness", "statement": "validate_cmp_extended_key_usage passes iff the extension holds the OIDs of the requested CMP usages as the strictness asks; unknown names are a ValueError; an extension built for the same names passes every level.", "quantifier": "all extended key usage extensions, lists of names and levels", "why_tests_cant": "all lists of OIDs", "anchors": ["resources/certutils.py: validate_cmp_extended_key_usage", "resources/certbuildutils.py: prepare_extensions"]}
{"id": "C85", "title": "Status checks of responses", "statement": "verify_pkistatusinfo passes iff the body carries a status, the status is one of the listed names, failure information is present if it must be, one of the listed failures is set unless failures are tolerated, and the body is of the named type; comparing a named number with names is true iff one of the names has that number; a revocation response passes check_rp_cmp_message_body iff it is accepted without failure, or rejected with one.", "quantifier": "all messages, status values, failure bits, lists of names and options", "why_tests_cant": "all texts and bit strings", "anchors": ["resources/checkutils.py: check_rp_cmp_message_body", "resources/asn1utils.py: asn1_compare_named_values, asn1_compare_named_integer", "resources/cmputils.py: get_pkistatusinfo, verify_pkistatusinfo"]}
{"id": "C86", "title": "Key usage of requests fits the key", "statement": "A requested key usage is granted iff it fits the key: exactly keyEncipherment for KEM keys, only signature usages for signature keys, no encipherment for EC keys, anything for RSA, key agreement with at most one of encipherOnly and decipherOnly for X25519/X448; granted usages are as requested and critical. End entities cannot request certificate or CRL signing; CA certificates get certificate signing; migration and related certificates have the usages of their kind.", "quantifier": "all key usage extensions, key kinds, basic constraints and certificate pairs", "why_tests_cant": "2^9 usages times all key kinds", "anchors": ["resources/certbuildutils.py: _verify_key_usage, _check_sig_key, _check_ecc_key_usage, _check_x_ecc_key_usage, check_logic_extensions", "resources/ca_ra_utils.py: _ensure_key_usage", "resources/certutils.py: validate_migration_certificate_key_usage", "pq_logic/hybrid_sig/cert_binding_for_multi_auth.py: validate_ku_and_eku_related_cert"]}
{"id": "C87", "title": "Password protection round trip", "statement": "A message that protect_pkimessage protects with a MAC under a password (PBMAC1, PasswordBasedMac, HMAC, KMAC, AES-GMAC, under every spelling of the name) passes verify_pkimessage_protection with that password, both the object and the message that was encoded and decoded; with bad_message_check it always fails with BadMessageCheck. With enforce_lwcmp it passes iff the protection is PBMAC1 or PasswordBasedMac with a SHA-2 hash.", "quantifier": "all messages, passwords (text, hexadecimal, bytes), salts, iteration counts, key lengths, hashes, options and random bytes of either side", "why_tests_cant": "all inputs and all randomness", "anchors": ["resources/protectionutils.py: protect_pkimessage, verify_pkimessage_protection, _prepare_prot_alg_id, _compute_pkimessage_protection, _compute_symmetric_protection, _compute_pbmac1_from_param", "resources/prepare_alg_ids.py: prepare_pbmac1_parameters, prepare_password_based_mac_parameters, prepare_hmac_alg_id, prepare_kmac_alg_id, prepare_aes_gmac_prot_alg_id", "resources/suiteenums.py: ProtectionAlgorithm.get"]}
{"id": "C88", "title": "Password protection is decided exactly", "statement": "verify_pkimessage_protection accepts a message with a MAC algorithm iff the protection value is the MAC of header and body that the algorithm, its parameters and the password determine, and with enforce_lwcmp iff moreover the algorithm is one of the profile; any other value is BadMessageCheck. Nothing is accepted without algorithm, protection value, password and body. Two accepted messages with one protection value have the same header and body unless the MAC has a collision. The decision depends on message and password only.", "quantifier": "all messages, algorithm identifiers (structured, encoded, malformed), protection values and passwords", "why_tests_cant": "all byte strings", "anchors": ["resources/protectionutils.py: verify_pkimessage_protection, _compute_symmetric_protection, _compute_pbmac1_from_param, prepare_protected_part", "resources/cryptoutils.py: compute_pbkdf2_from_parameter, compute_password_based_mac, compute_hmac, compute_kmac_from_alg_id, compute_gmac"]}
{"id": "C89", "title": "Protection with an agreed secret", "statement": "A message protected with DHBasedMac verifies at the peer, which has the same shared secret or the other key pair of the key agreement; with bad_message_check it fails with BadMessageCheck. A message is accepted iff its protection is the DH-based MAC of header and body under the shared secret, with a key derived as RFC 4210 prescribes.", "quantifier": "all messages, secrets, key pairs on both sides, hashes, MAC algorithms and options", "why_tests_cant": "all secrets and messages", "anchors": ["resources/protectionutils.py: compute_dh_based_mac_from_alg_id, dh_based_mac_derive_key, _perform_dh_based_mac_exchange, _verify_dh_based_protection", "resources/prepare_alg_ids.py: prepare_dh_based_mac_params", "resources/cryptoutils.py: perform_ecdh"]}
{"id": "C90", "title": "Protection with a key encapsulation mechanism", "statement": "A message protected with KemBasedMac verifies: with the shared secret on both sides, with the secret encapsulated for the sender's key, or with the private key of the certificate it was encapsulated for; with bad_message_check it fails with BadMessageCheck. It is accepted iff the protection is the MAC of header and body under the key derived from shared secret, transaction ID and context by the named function.", "quantifier": "all messages, secrets, keys, ciphertexts, key derivation functions, hashes and contexts", "why_tests_cant": "all secrets and messages", "anchors": ["resources/protectionutils.py: protect_pkimessage_kem_based_mac, verify_kem_based_mac_protection, compute_kem_based_mac_from_alg_id, compute_kdf_from_alg_id, prepare_kem_ciphertextinfo", "resources/prepare_alg_ids.py: prepare_kem_based_mac_alg_id, prepare_kdf_alg_id"]}
{"id": "C91", "title": "Signature protection round trip", "statement": "A message that protect_pkimessage signs verifies with the signer's public key, given as an argument or in the first extra certificate, before and after it travels; with enforce_lwcmp iff the algorithm is one of the profile.", "quantifier": "all messages, all signature key kinds, hashes, certificates and chains, random bytes", "why_tests_cant": "all messages and keys", "anchors": ["resources/protectionutils.py: protect_pkimessage, sign_data_with_alg_id, _prepare_signature_prot_alg_id, add_cert_to_pkimessage_used_by_protection, _verify_pki_message_sig", "resources/prepare_alg_ids.py: prepare_sig_alg_id, prepare_rsa_pss_alg_id", "resources/oid_mapping.py: get_alg_oid_from_key_hash", "resources/cryptoutils.py: sign_data, verify_signature"]}
{"id": "C92", "title": "Signature algorithm identifiers are bound to the key", "statement": "A signature is accepted under an algorithm identifier iff the identifier belongs to the kind of the key, has exactly the parameters of its specification (NULL for RSA PKCS #1 v1.5, matching hash and MGF for RSASSA-PSS, absent otherwise), and the signature verifies with the scheme it names; a signed message likewise, whether the key is given or taken from its certificate. Two messages accepted with one signature have the same header and body unless the signature is valid for two inputs.", "quantifier": "all keys, algorithm identifiers with any parameters, signatures, data and messages", "why_tests_cant": "all byte strings times all identifiers", "anchors": ["resources/protectionutils.py: verify_signature_with_alg_id, verify_rsassa_pss_from_alg_id, _validate_sig_alg_id, _verify_pki_message_sig", "resources/keyutils.py: check_consistency_sig_alg_id_and_key", "resources/certutils.py: verify_signature_with_cert"]}
{"id": "C93", "title": "The kind of protection is determined by the algorithm", "statement": "Every algorithm identifier has at most one kind of protection (KEM-based, DH-based, MAC, signature, post-quantum, stateful, composite), get_protection_type reports it and refuses all others; for a message, the report also needs the caller's permission for DH and KEM and, with enforce_lwcmp, that the profile has the algorithm; a known algorithm that is not allowed is BadAlg.", "quantifier": "all identifiers and all combinations of options", "why_tests_cant": "all identifiers", "anchors": ["resources/suiteenums.py: ProtectedType.get_protection_type", "resources/protectionutils.py: get_protection_type_from_pkimessage, _enforce_lwcmp_protection_alg"]}
{"id": "C94", "title": "Derived keys have the prescribed contents and length", "statement": "The ANSI X9.63 key derivation (KDF2, KDF3) returns exactly the number of bytes asked for, the beginning of the sequence of digests over counter, secret and other information, counted from 1; a shorter key is a prefix of a longer one; beyond 2^32-1 blocks it refuses. The key derivation of DHBasedMac returns the base key followed by the digests of the decimal numbers and the base key, cut to the length asked for.", "quantifier": "all secrets, lengths, other information and hashes", "why_tests_cant": "all lengths", "anchors": ["resources/cryptoutils.py: compute_ansi_x9_63_kdf", "resources/protectionutils.py: dh_based_mac_derive_key"]}
{"id": "C95", "title": "MAC protection stays the same through an exchange", "statement": "mac_protection_algorithms_must_match passes in strict mode iff request and response name the same MAC algorithm (one of the Lightweight CMP profile when it is enforced) and its parameters agree: same iteration count, key length, pseudo-random function, one-way function and MAC, and salts that differ, or with same_salt are equal. Two messages protected with the same settings match iff their salts obey the rule. In the other mode it passes iff all messages have one kind of protection.", "quantifier": "all messages, algorithm identifiers with any parameters, options and confirmations", "why_tests_cant": "all pairs of parameter structures", "anchors": ["resources/protectionutils.py: mac_protection_algorithms_must_match, _compare_mac_params, _compare_pbmac1_parameters, _compare_pbm_parameters, _compare_pbkdf2_parameters, _compare_not_strict_mac, _compare_alg_id"]}
{"id": "C96", "title": "Signature protection stays the same through an exchange", "statement": "signature_protection_must_match passes iff the response has extra certificates, there is a confirmation or a polling response, all messages name the same signature algorithm without parameters, every message is signed with the key of the first certificate of the response, and the certificates of every message that has any build a chain with the same encoding.", "quantifier": "all messages, certificates and chain builders", "why_tests_cant": "all message combinations", "anchors": ["resources/protectionutils.py: signature_protection_must_match, check_signature_alg_is_consistent, _check_is_same_chain", "resources/certutils.py: verify_signature_with_cert, build_chain_from_list"]}
{"id": "C97", "title": "Salts are read and protections modified as described", "statement": "get_cmp_protection_salt returns the salt a message was protected with, before and after it travels. modify_pkimessage_protection changes the first byte of the protection and nothing else, or adds 32 random bytes when there is none; a MAC message that was accepted is then refused with BadMessageCheck.", "quantifier": "all messages, salts, random bytes and passwords", "why_tests_cant": "all messages", "anchors": ["resources/protectionutils.py: get_cmp_protection_salt, modify_pkimessage_protection"]}
{"id": "C98", "title": "Hybrid verification accepts exactly what is signed with both keys", "statement": "verify_hybrid_pkimessage_protection accepts a message iff it names an algorithm and its protection verifies, over header and body, with the key of the verifier (a given composite key, the composite key of the first certificate or the traditional key of it joined with its alternative ML-DSA key for composite algorithms; the key of the first certificate otherwise), and, unless the algorithm is composite, either there is no alternative signature and none is asked for, or the last alternative signature verifies under the last alternative algorithm over the message without alternative signatures. Verifying removes nothing from the message but its alternative signatures.", "quantifier": "all messages, certificates, keys, generalInfo contents, options and libraries", "why_tests_cant": "all messages and generalInfo contents", "anchors": ["pq_logic/pq_verify_logic.py: verify_hybrid_pkimessage_protection, _get_catalyst_info_vals, verify_composite_signature_with_hybrid_cert, _verify_signature_with_other_cert", "resources/protectionutils.py: verify_composite_signature_with_keys"]}
{"id": "C99", "title": "Hybrid protection verifies with the keys it was made with", "statement": "A message protected by protect_hybrid_pkimessage with a signature or a composite signature is accepted by a verifier with the same key, before and after it travels; one with an alternative signature is accepted iff that signature verifies over the message without it, so it is accepted unless bad_message_check was asked for.", "quantifier": "all messages, keys, options, random bytes and libraries whose decoders undo their encoders and whose signatures verify", "why_tests_cant": "all messages and keys", "anchors": ["resources/protectionutils.py: protect_hybrid_pkimessage, _compute_and_prepare_pkimessage_sig_protection, _patch_extra_certs, _prepare_catalyst_info_vals", "resources/utils.py: manipulate_bytes_based_on_key", "pq_logic/pq_verify_logic.py: verify_hybrid_pkimessage_protection"]}
{"id": "C100", "title": "Original messages of a request are verified", "statement": "validate_orig_pkimessage passes iff generalInfo has no original messages and none are asked for, or the first entry decodes completely to messages whose protection all verifies with the given password (or their own certificates); otherwise the first message that fails decides the error, missing messages are BadRequest.", "quantifier": "all messages, generalInfo contents, decoders and passwords", "why_tests_cant": "all lists of messages", "anchors": ["resources/protectionutils.py: validate_orig_pkimessage, verify_pkimessage_protection", "resources/cmputils.py: find_oid_in_general_info, get_value_from_seq_of_info_value_field"]}
{"id": "C101", "title": "Certificates are issued only for keys whose possession is shown", "statement": "When an ir, cr or kur is answered with a certificate for a request, then the CA generates the key, or an RA vouches for the request, or the request carries a valid signature made with the requested key over the certReq, or a MAC under the agreed key, or the private key itself, or the certificate is sent encrypted for the requested key; and the certificate is for the key of the request.", "quantifier": "all messages with any number of requests, keys, templates, regInfo, options and libraries", "why_tests_cant": "all requests and combinations of proof, key type and template", "anchors": ["resources/ca_ra_utils.py: build_ip_cmp_message, _process_cert_requests, _process_one_cert_request, respond_to_cert_req_msg, verify_popo_for_cert_request", "mock_ca/cert_req_handler.py: process_cert_request"]}
{"id": "C102", "title": "The proof of possession of a request is verified exactly", "statement": "verify_popo_for_cert_request accepts the request at an index iff it asks for a generated key and has no proof, or has raVerified from an RA, or a signature over its own certReq that verifies with the requested key, or names key encipherment with a KEM key or key agreement with an EC or XDH key.", "quantifier": "all messages, indices, keys, proofs and options", "why_tests_cant": "all proofs and positions", "anchors": ["resources/ca_ra_utils.py: verify_popo_for_cert_request, _verify_pop_signature, verify_sig_pop_for_pki_request, check_if_request_is_for_kga, get_public_key_from_cert_req_msg"]}
{"id": "C103", "title": "An RA can replace the template but not the key of a request", "statement": "A request inside regInfo is accepted iff it is the only one of its type, decodes completely, has the same identifier and the same public key; it is then the template the certificate is issued for. Whatever regInfo contains, the certificate has the key of the original request.", "quantifier": "all requests, regInfo contents and decoders", "why_tests_cant": "all regInfo contents", "anchors": ["resources/cmputils.py: validate_reg_info_field, validate_cert_req_inside_reg_info, _validate_cert_request_reg_info, _check_unique_controls", "resources/ca_ra_utils.py: _process_one_cert_request, respond_to_cert_req_msg"]}
{"id": "C104", "title": "A message with several requests is answered completely or not at all", "statement": "The identifiers of the requests must be 0..n-1 in some order; the answer has one certificate for each request, in order and with its identifier, each the one the request alone would get; the first request that fails decides the error. In the lightweight profile there is one request with identifier 0.", "quantifier": "all messages with any number of requests", "why_tests_cant": "any number of requests", "anchors": ["resources/ca_ra_utils.py: validate_cert_req_id_nums, _process_cert_requests, enforce_lwcmp_for_ca, validate_cert_req_id, build_ip_cmp_message"]}
{"id": "C105", "title": "raVerified is accepted from RAs only", "statement": "When RA certificates are configured, raVerified is accepted iff the message is from one of them: its first certificate is a known RA certificate with the extended key usage and key usage required and, if asked, a valid chain.", "quantifier": "all messages, certificates and options", "why_tests_cant": "all messages and certificates", "anchors": ["resources/ca_ra_utils.py: _verify_ra_verified, verify_popo_for_cert_request, respond_to_cert_req_msg", "resources/certutils.py: cert_in_list", "mock_ca/cert_req_handler.py: process_cert_request"]}
{"id": "C106", "title": "A key update replaces the named certificate with a new key", "statement": "build_kup_from_kur answers iff the message is a kur with one request with identifier 0 that is signed with the new key or asks for a generated one, the new key differs from the one of the certificate that is updated unless the same key is allowed, and every oldCertId names the serial number of the certificate and the name of its issuer (and there is one if required); the certificate has the template of the request.", "quantifier": "all messages, certificates, controls and options", "why_tests_cant": "all controls and certificates", "anchors": ["resources/ca_ra_utils.py: build_kup_from_kur, validate_kur_controls, _validate_old_cert_id, _validate_popo_kur, get_popo_from_pkimessage"]}
{"id": "C107", "title": "Cross-certificates are CA certificates for a signed, complete request", "statement": "build_ccp_from_ccr answers iff the message is a ccr with one request with identifier 0, signed with its key, whose template has all fields required and whose key usage, if any, allows signing certificates; the certificate has that template with key usage and basic constraints added.", "quantifier": "all messages, templates and keys", "why_tests_cant": "all templates", "anchors": ["resources/ca_ra_utils.py: build_ccp_from_ccr, _process_crr_single, _validate_ccr_cert_template, _ensure_key_usage, _ensure_basic_constraints, verify_popo_for_cert_request, verify_sig_pop_for_pki_request"]}
{"id": "C108", "title": "PKCS #10 requests get a certificate iff they are signed with their key", "statement": "build_cp_from_p10cr answers iff the message is a p10cr whose request has a non-empty subject or subject alternative name, a usable key and a signature over it that verifies with this key; the certificate is for its subject, key and extensions, the identifier in the answer is -1.", "quantifier": "all requests, keys and libraries", "why_tests_cant": "all requests", "anchors": ["resources/ca_ra_utils.py: build_cp_from_p10cr", "resources/certutils.py: verify_csr_signature"]}
{"id": "C109", "title": "Template, key and algorithm rules, and who can read the certificate", "statement": "A template is accepted iff it names a subject or a subject alternative name and its key is allowed; the algorithm of a signature must be one for the kind of key. A certificate sent encrypted is encrypted for the key it is issued for. A request signed with any supported algorithm under a fitting key is served.", "quantifier": "all templates, keys, algorithm identifiers and proofs", "why_tests_cant": "all combinations of key type, algorithm and proof", "anchors": ["resources/ca_ra_utils.py: validate_cert_template_public_key, respond_to_key_agreement_request, respond_to_key_encipherment_request, process_encrypted_key, validate_enc_key_with_id, prepare_encr_cert_from_request, respond_to_cert_req_msg", "resources/keyutils.py: check_consistency_sig_alg_id_and_key, load_public_key_from_cert_template", "resources/certbuildutils.py: build_cert_from_cert_template"]}
{"id": "C110", "title": "Controls of certificate requests are checked exactly", "statement": "validate_cert_request_controls accepts the controls of a request iff the archive options, if they give parameters of the key generation, generate the requested key; the publication information is consistent; the registration token and the authenticator, if given, are the only controls of their type, decode completely and are the expected ones; the token was not used before; and all controls that must be present are.", "quantifier": "all requests, lists of controls, expected values, options and decoders", "why_tests_cant": "all lists of controls and all combinations of required and expected values", "anchors": ["resources/ca_ra_utils.py: validate_cert_request_controls", "resources/cmputils.py: validate_archive_options, _validate_key_gen_params, validate_pki_publication_information, validate_reg_token_control, validate_authenticator_control, _check_unique_controls"]}
{"id": "C111", "title": "A one-time registration token is honoured at most once", "statement": "In every history of requests to the mock CA at most one request with a registration token is answered with certificates, it has the right token, and none is after the token was used; the token is used up only by a request that gets its certificate; every certificate of the history is one its sender is entitled to.", "quantifier": "all histories of ir, cr and KEM-protected kur messages with any number of requests, with failures anywhere", "why_tests_cant": "all histories and orders of failing and successful requests", "anchors": ["mock_ca/cert_req_handler.py: process_cert_request, process_ir, process_cr", "resources/data_objects.py: ExtraIssuingData", "resources/ca_ra_utils.py: validate_cert_request_controls, _process_one_cert_request, _process_cert_requests, build_ip_cmp_message"]}
{"id": "C112", "title": "UTF8Pairs are read in exactly one way and round-trip", "statement": "The parser of UTF8Pairs accepts exactly the texts Name?Value%Name?Value%... with escaped question marks and percent signs and names that do not start with a digit, and reads each in one way. All such pairs, of any Unicode text, can be written, prepared and validated back to the same pairs; validate_reg_info_utf8_pairs accepts exactly a single entry that decodes completely to such a text.", "quantifier": "all texts, pairs, lists of registration information and decoders", "why_tests_cant": "all texts of any length", "anchors": ["resources/cmputils.py: _parse_utf8_pairs, prepare_utf8_pairs_req_info, validate_reg_info_utf8_pairs"]}
{"id": "C113", "title": "The delta certificate is had back from a paired (chameleon) certificate", "statement": "build_delta_cert_from_paired_cert gives back the delta certificate from the certificate build_chameleon_base_certificate made of it, exactly when version, unique identifiers and extension types agree with the base certificate and the algorithm is the same or has no parameters. From any certificate it takes what the first descriptor says and keeps the rest; it succeeds iff the descriptor can be read and overrides only extensions that are there. The delta key is that of the descriptor, and validate_dcd_extension accepts exactly the descriptors that override extensions with other content.", "quantifier": "all delta certificates, base certificates, keys, options and certificates with any extensions", "why_tests_cant": "all combinations of fields that differ and all lists of extensions", "anchors": ["pq_logic/hybrid_sig/chameleon_logic.py: build_chameleon_base_certificate, prepare_dcd_extension_from_delta, build_delta_cert_from_paired_cert, get_chameleon_delta_public_key, validate_dcd_extension"]}
{"id": "C114", "title": "A paired request proves possession of both keys", "statement": "verify_paired_csr_signature accepts a request iff the request signature verifies under the base key and the delta signature verifies under the key of the delta request over the request without it. A request from build_paired_csr is accepted in whatever order its attributes arrive, the negative one is refused, and the delta key the CA looks up is the proven one when there is one delta request.", "quantifier": "all requests, keys, extensions, names and attribute orders", "why_tests_cant": "all attribute lists, including repeated attributes", "anchors": ["pq_logic/hybrid_sig/chameleon_logic.py: build_paired_csr, verify_paired_csr_signature, extract_chameleon_attributes, load_chameleon_csr_delta_key_and_sender", "resources/certutils.py: verify_csr_signature"]}
{"id": "C115", "title": "A paired certificate is issued only for two proven, different keys, and its delta can be had back", "statement": "build_chameleon_cert_from_paired_csr issues two certificates the CA's key verifies, for the base key and the delta key of the request, both proven, different and of an allowed size, with the names asked for. If both parts ask for extensions, each certificate carries its key identifier, the CA's own extensions and those asked for in both parts in its own version, and with the default hash the delta certificate is had back from the paired one.", "quantifier": "all requests, options, extensions and CA keys", "why_tests_cant": "all lists of requested extensions and all options", "anchors": ["pq_logic/hybrid_sig/chameleon_logic.py: build_chameleon_cert_from_paired_csr, build_delta_cert, process_extensions_for_chameleon, _process_remove_extensions, _parse_extension, _validate_keys", "resources/certbuildutils.py: build_cert_from_csr, sign_cert, validate_subject_key_identifier_extension"]}
{"id": "C116", "title": "EnvelopedData is opened exactly by whom it is for", "statement": "validate_enveloped_data, validate_pwri_enveloped_data, validate_kemri_enveloped_data, validate_kemri_env_data_for_ca and validate_kari_env_data return the content iff the number of recipients is the expected one, the recipient has the version, algorithms and parameters RFC 9483 asks for and names the given certificate, its encrypted key opens with the given key or password, and the content has the expected type and an algorithm of the size of that key. A password recipient must not use the salt of the protection, and with a password the protection is verified under the same password.", "quantifier": "all EnvelopedData structures with any recipients, keys, certificates, passwords and messages", "why_tests_cant": "all combinations of present and absent fields, recipient types and algorithms", "anchors": ["resources/ca_kga_logic.py: validate_enveloped_data, validate_pwri_enveloped_data, validate_kemri_enveloped_data, validate_kemri_env_data_for_ca, validate_kari_env_data, extract_content_encryption_key, validate_encrypted_content_info, validate_password_recipient_info, validate_key_agree_recipient_info, validate_key_trans_recipient_info, validate_kem_recip_info_structure, process_kari, process_mqv, process_kem_recip_info"]}
{"id": "C117", "title": "EnvelopedData that is built is opened by its recipient", "statement": "What build_env_data_for_exchange builds for an RSA, elliptic curve or KEM key is opened by the holder of that key and gives back the data; what prepare_enveloped_data_with_pwri builds is opened with the password, if the salts differ and the protection is valid. prepare_password_recipient_info, prepare_ktri, prepare_kari and prepare_kem_recip_info build a recipient that is opened exactly for the options the recipient accepts.", "quantifier": "all keys, data, passwords, certificates and options", "why_tests_cant": "all options of the builders and all keys", "anchors": ["resources/envdatautils.py: build_env_data_for_exchange, prepare_enveloped_data, prepare_enveloped_data_with_pwri, prepare_encrypted_content_info, prepare_password_recipient_info, prepare_ktri, prepare_kari, prepare_kem_recip_info, prepare_recipient_identifier, prepare_originator_identifier_or_key"]}
{"id": "C118", "title": "A signature algorithm is accepted exactly for the keys it is for", "statement": "check_protection_alg_conform_to_spki answers for every two algorithm identifiers and says yes exactly if the signature algorithm is one of the key: ECDSA for EC keys, EdDSA for Edwards keys, RSA signatures for RSA keys, for RSASSA-PSS keys the same parameters, for post-quantum keys the pure or pre-hash variant of the same parameter set, for composite keys the same pair of keys. get_digest_hash_alg_from_alg_id names the hash function of every signature algorithm.", "quantifier": "all pairs of algorithm identifiers with any parameters", "why_tests_cant": "every pair of algorithms, including those that are in none of the tables", "anchors": ["resources/checkutils.py: check_protection_alg_conform_to_spki, _check_pq_sig_conform_to_spki, _validate_composite_sig_conform_to_spki", "resources/oid_mapping.py: get_digest_hash_alg_from_alg_id, compute_hash", "resources/ca_kga_logic.py: _is_signature_alg_id"]}
{"id": "C119", "title": "A signed key package yields its key exactly if it is signed by a trusted key generation authority", "statement": "validate_signed_data_structure returns the private key at the index iff the SignedData has version 3, the expected numbers of keys, digests and signers, a key package as its content, a digest that matches the content, a signature that verifies with the first certificate of the chain under an algorithm of its key, and a chain that ends at a trust anchor, is verified, and begins with a certificate for key generation. What prepare_signed_data builds for one key with a certified signer is accepted and yields that key; what it builds without a subject key identifier, with two different hashes or with a spoiled signature is not.", "quantifier": "all SignedData structures with any certificates, signers, attributes and trust anchors; all signers, keys and hashes", "why_tests_cant": "all combinations of fields, orders of certificates and libraries", "anchors": ["resources/ca_kga_logic.py: validate_signed_data_structure, check_signer_infos, validate_signed_attributes, validate_signature_and_digest_alg, validate_asymmetric_key_package, get_certificates_from_signed_data, _validate_kga_certificate", "resources/envdatautils.py: prepare_signed_data, prepare_signer_infos, prepare_signed_attributes, prepare_asymmetric_key_package"]}
{"id": "C120", "title": "A key generated by the CA is the key of the certificate that came with it", "statement": "validate_not_local_key_gen returns a private key iff the message has version 3, the EnvelopedData of the response at the index is opened with what the receiver has, its content is a signed key package that is accepted, the kind of recipient goes with the protection of the message, and the public key is that of the certificate in the response. With a password, the protection of the message was verified with the same password. A response with the EnvelopedData built for a password is accepted unless its salt is that of the protection.", "quantifier": "all messages, recipients, keys, passwords, indices and trust anchors", "why_tests_cant": "all combinations of recipients, protections and responses", "anchors": ["resources/ca_kga_logic.py: validate_not_local_key_gen, _check_correct_non_local_key_gen_use", "resources/cmputils.py: get_cert_from_pkimessage"]}
{"id": "C121", "title": "A catalyst certificate is accepted exactly if both its signatures are valid", "statement": "validate_catalyst_extensions returns the alternative key, algorithm and signature iff all three extensions are there and are decoded (the last of each counts) and the algorithm is the one demanded, returns None iff none of them is there, and raises ValueError iff only some are. verify_catalyst_signature accepts iff, with those values, the signature of the certificate verifies with the key of the issuer (or the key given, or its own) and the alternative signature verifies over everything else in the certificate but the signature algorithm. sign_cert_catalyst adds the three extensions; what it signs is accepted, what it signs badly is not.", "quantifier": "all certificates with any extensions in any order and number, all keys, hashes and libraries", "why_tests_cant": "all lists of extensions, with repeated and undecodable ones, and all keys", "anchors": ["pq_logic/hybrid_sig/catalyst_logic.py: validate_catalyst_extensions, verify_catalyst_signature, sign_cert_catalyst, load_catalyst_public_key, convert_tbs_to_pre_tbs, extract_alt_signature_data"]}
{"id": "C122", "title": "A revocation list with an alternative signature is accepted exactly if both signatures are valid", "statement": "verify_crl_signature accepts iff the list is signed by the CA and either has no extensions (and an alternative signature is not demanded) or has an alternative signature, algorithm and key (given, or in the list) with which it verifies. An invalid alternative signature raises InvalidAltSignature. What sign_crl_catalyst makes is accepted, with or without the alternative key in the list.", "quantifier": "all lists with any extensions, keys, hashes and libraries", "why_tests_cant": "all lists of extensions, and the second verification of the same object", "anchors": ["pq_logic/pq_verify_logic.py: verify_crl_signature", "pq_logic/hybrid_sig/catalyst_logic.py: sign_crl_catalyst"]}
{"id": "C123", "title": "A Sun hybrid certificate is converted between its four forms without loss", "statement": "convert_sun_hybrid_cert_to_target_form replaces exactly the first extension of each type whose form differs, with the value at its location or the hash of its value, and changes nothing else; get_sun_hybrid_form then tells the form asked for. If the key and the signature are at the locations, every form can be had from every other and converting back gives the same certificate. contains_sun_hybrid_cert_form_1_or_3 and validate_cert_contains_sun_hybrid_extensions accept exactly what they say.", "quantifier": "all certificates with any extensions in any order and number, all keys, signatures, hash names, locations and contents of these", "why_tests_cant": "all lists of extensions and all contents of the locations, over sequences of conversions", "anchors": ["pq_logic/hybrid_sig/sun_lamps_hybrid_scheme_00.py: prepare_sun_hybrid_alt_sub_pub_key_ext, prepare_sun_hybrid_alt_signature_ext, convert_sun_hybrid_cert_to_target_form, get_sun_hybrid_form, contains_sun_hybrid_cert_form_1_or_3, validate_cert_contains_sun_hybrid_extensions"]}
{"id": "C124", "title": "A Sun hybrid certificate is accepted exactly if it is signed twice and its key is the one referred to", "statement": "verify_sun_hybrid_cert accepts iff the certificate, in Form4, is signed by the issuer, its key extension refers to a key with the hash and the algorithm in it, and the alternative key of the issuer signed everything but the signature extensions. sun_cert_template_to_cert and sun_csr_to_cert issue a pair of certificates in Form4 and Form1 that are converted into each other; both are accepted if the algorithm written is the one used, and refused if the alternative signature was spoilt.", "quantifier": "all certificates, requests, keys, hashes, locations and libraries", "why_tests_cant": "all extensions and attributes, and the contents of the locations", "anchors": ["pq_logic/pq_verify_logic.py: verify_sun_hybrid_cert", "pq_logic/hybrid_sig/sun_lamps_hybrid_scheme_00.py: validate_alt_pub_key_extn, validate_alt_sig_extn, sun_cert_template_to_cert, sun_csr_to_cert"]}
{"id": "C125", "title": "The alternative key of a certificate is taken from the first source it has", "statement": "may_extract_alt_key_from_cert returns the key of the Sun extension, else of the related certificate if certificates are given, else of the catalyst extension, else of the certificate that is discovered, else of the delta certificate, else the post-quantum part of a composite key, and None iff there is no such source.", "quantifier": "all certificates with any extensions, all lists of other certificates and libraries", "why_tests_cant": "all combinations of extensions and failures of the sources", "anchors": ["pq_logic/pq_verify_logic.py: may_extract_alt_key_from_cert", "pq_logic/hybrid_sig/sun_lamps_hybrid_scheme_00.py: get_sun_hybrid_alt_pub_key"]}
{"id": "C126", "title": "A related certificate is the one whose digest the extension holds", "statement": "validate_related_cert_extension accepts iff the relatedCertificate extension of the first certificate holds the digest, by the hash given or that of its signature algorithm, of the whole second certificate and the usages are compatible; with a collision free hash it accepts one certificate only. What prepare_related_cert_extension makes is accepted. get_related_cert_from_list returns the first certificate of the list with the digest, and fails iff there is none.", "quantifier": "all certificates with any extensions and usages, all lists of certificates, hash names and libraries", "why_tests_cant": "all contents of the extension and all orders of the list", "anchors": ["pq_logic/hybrid_sig/cert_binding_for_multi_auth.py: validate_related_cert_extension, prepare_related_cert_extension, get_related_cert_from_list"]}
{"id": "C127", "title": "A request for a related certificate proves possession of its key, now", "statement": "validate_related_cert_pop returns the certificates at the location of the request iff the request time is not in the future and not older than allowed, the first certificate has the issuer and serial number of the request, and its key verifies the signature over the time, the issuer and the serial number. What prepare_requester_certificate makes is accepted while it is fresh; with a wrong signature, serial number or issuer it is not.", "quantifier": "all certificate requests, times, locations and what is at them, keys and hashes", "why_tests_cant": "all times and all contents of the locations, and every way of changing the request", "anchors": ["pq_logic/hybrid_sig/cert_binding_for_multi_auth.py: prepare_requester_certificate, add_csr_related_cert_request_attribute, extract_related_cert_request_attribute, validate_related_cert_pop", "resources/utils.py: load_certificate_from_uri"]}
{"id": "C128", "title": "A certificate request is bound to a related end entity certificate with a trusted chain", "statement": "validate_multi_auth_binding_csr returns the related certificate iff neither the request nor that certificate is for a certification authority, possession is proved as above, the chain ends in a trust anchor, and OpenSSL accepts the chain if it is asked. server_side_validate_cert_binding_for_multi_auth accepts a certificate to be issued whose usages the related one has while both are valid.", "quantifier": "all requests, chains, directories of trust anchors and settings", "why_tests_cant": "all combinations of loaded, built and given chains with the trust anchors", "anchors": ["pq_logic/hybrid_sig/cert_binding_for_multi_auth.py: validate_multi_auth_binding_csr, server_side_validate_cert_binding_for_multi_auth", "resources/certutils.py: build_cert_chain_from_dir, certificates_are_trustanchors"]}
{"id": "C129", "title": "Certificate discovery finds the certificate that the descriptor names", "statement": "extract_related_cert_des_from_sis_extension returns the descriptor of the first discovery access description, or of the one asked for; what prepare_subject_info_access_syntax_extension writes is read again; validate_related_certificate_descriptor_alg_ids accepts iff the algorithms that the descriptor has are those of the certificate; get_cert_discovery_cert returns the certificate at the location; validate_cert_discovery_cert accepts a certificate with these algorithms and a chain.", "quantifier": "all certificates, extensions, access descriptions, locations and what is at them", "why_tests_cant": "all lists of access descriptions and contents of the locations", "anchors": ["pq_logic/hybrid_sig/certdiscovery.py: prepare_subject_info_access_syntax_extension, extract_related_cert_des_from_sis_extension, is_cert_discovery_cert, get_cert_discovery_cert, validate_related_certificate_descriptor_alg_ids, validate_cert_discovery_cert"]}
{"id": "C130", "title": "Names are compared as the mode says", "statement": "compare_pyasn1_names has four modes and raises ValueError for any other text. without_tag holds iff the RDNs are the same in the same order, each as a set; strict iff the tags are the same too; contains iff every attribute of the first name is one of the second; contains_seq iff it is at the same position. Each mode accepts what the one before accepts. find_rel_dis_name_in_name finds an RDN iff the name has it; is_null_dn holds iff there are none.", "quantifier": "all pairs of names with any RDNs, attributes and tags, and all texts for the mode", "why_tests_cant": "all names; the modes are related for all of them", "anchors": ["resources/compareutils.py: compare_pyasn1_names, find_rel_dis_name_in_name, is_null_dn, check_if_alg_id_parameters_is_absent", "resources/suiteenums.py: NameCompareTypes"]}
{"id": "C131", "title": "A template equals a certificate iff the compared fields agree", "statement": "compare_cert_template_and_cert returns True iff each field that is to be compared and that the template has agrees with the certificate, and False iff one does not, if the names and keys can be read. What is to be included has precedence over what is to be excluded; comparing fewer fields, or the subject not strictly, accepts at least as much.", "quantifier": "all templates, certificates, texts of included and excluded fields and both ways of comparing the subject", "why_tests_cant": "every combination of absent and present fields and of included and excluded ones", "anchors": ["resources/compareutils.py: compare_cert_template_and_cert, _compare_validity_template_and_cert, _compare_public_key_template_and_cert, _compare_extensions_subject_template_and_cert, _compare_uids_template_and_cert, _compare_issuer_and_subject_template_and_cert", "resources/utils.py: filter_options"]}
{"id": "C132", "title": "A template selects the first certificate of a list that it fits", "statement": "What is selected for revocation is the first of the known certificates that the whole template fits, and BadCertId is raised iff none fits. cert_template_exists returns True iff a certificate with the subject and the key, or one that the template fits, has been issued. check_for_granted_with_mods accepts a response iff the certificate is what was asked for or the status is grantedWithMods.", "quantifier": "all templates and all lists of certificates", "why_tests_cant": "all lists and the position of the match in them", "anchors": ["resources/ca_ra_utils.py: _contains_cert_template, cert_template_exists", "resources/checkutils.py: check_for_granted_with_mods"]}
{"id": "C133", "title": "A certificate is compared with a request or a key in all they have", "statement": "compare_csr_and_cert returns True iff the subject and the key are those of the request and the extensions of the certificate are exactly those that the request asks for, if it has attributes. validate_certificate_public_key accepts iff the key of the certificate equals the one given and is of its class, and the algorithm identifiers are the same where one is given.", "quantifier": "all requests with any attributes, all certificates and keys", "why_tests_cant": "all combinations of attributes, extensions and keys", "anchors": ["resources/compareutils.py: compare_csr_and_cert, validate_certificate_public_key, _verify_spki_alg_id"]}
{"id": "C134", "title": "A revocation request revokes the certificate it identifies", "statement": "validate_rev_details accepts an entry iff it names the issuer and the serial number, names no version but v2, fits a certificate that was issued, and has one reason; with the list of revoked certificates, iff the certificate is in it exactly when it is to be revived. The certificate returned was issued and has the issuer and the serial number of the entry; it is the only one if serial numbers are not reused. By the lightweight profile the response has the status of the one entry.", "quantifier": "all entries, lists of issued and revoked certificates and reasons", "why_tests_cant": "all histories of revoking and reviving, all lists", "anchors": ["resources/ca_ra_utils.py: validate_rev_details, validate_rr_crl_entry_details_reason, _check_rev_details_mandatory_fields, _check_cert_for_revoked, _check_cert_for_revive, build_rp_from_rr", "resources/certutils.py: cert_in_list"]}
{"id": "C135", "title": "A migration chain leads from issuer to issuer", "statement": "What build_migration_cert_chain returns starts with the certificate; each certificate is signed by the next; the issuers come from the list, in its order; only the last may be its own issuer; nothing after it in the list signed it unless it is. A chain that is in the list in its order is found, if nothing else in the list signed one of its certificates.", "quantifier": "all certificates, all lists in any order and with any unrelated certificates, all outcomes of verification", "why_tests_cant": "all lists and orders", "anchors": ["pq_logic/pq_verify_logic.py: build_migration_cert_chain, _check_names"]}
{"id": "C136", "title": "The issuer and the chain of a Sun hybrid certificate", "statement": "find_sun_hybrid_issuer_cert returns the first certificate of the list with the name of the issuer whose key verifies the traditional signature of the certificate in form 4, and all before it have another name or fail to verify it. What build_sun_hybrid_cert_chain returns is the certificate in form 4 followed by forms 4 of certificates of the list, each signed by the next, and has at least two certificates.", "quantifier": "all certificates, lists and outcomes of conversion and verification", "why_tests_cant": "all lists and orders", "anchors": ["pq_logic/pq_verify_logic.py: find_sun_hybrid_issuer_cert, build_sun_hybrid_cert_chain"]}
{"id": "C137", "title": "The kind of a hybrid certificate, and hybrid signatures with two certificates", "statement": "is_hybrid_cert returns the first kind, in a fixed order, whose mark the certificate has, and None iff it has none. verify_cert_hybrid_signature accepts iff the composite of the key of the issuer and that of the other certificate verifies the signature, and the certificate has a key of a composite algorithm.", "quantifier": "all combinations of marks; all keys and certificates", "why_tests_cant": "all combinations of extensions in any order", "anchors": ["pq_logic/hybrid_issuing.py: is_hybrid_cert", "pq_logic/pq_verify_logic.py: verify_cert_hybrid_signature"]}
{"id": "C138", "title": "Which entry of a general response is checked", "statement": "The validators of general responses accept only a genp, require that the expected size is a number, and look at the first entry whose type is the one asked for. The expected size does not change the outcome.", "quantifier": "all messages, entries, types and sizes", "why_tests_cant": "all lists of entries", "anchors": ["resources/general_msg_utils.py: validate_general_response, validate_genm_message_size"]}
{"id": "C139", "title": "CA certificates in a general response", "statement": "validate_get_ca_certs returns a chain iff the response is a genp with the expected number of entries, the CA certificates asked for can be decoded, the chain of the end entity certificate (or the longest one) is built from them, and OpenSSL accepts the chain.", "quantifier": "all messages, certificates and outcomes of chain building and verification", "why_tests_cant": "all answers and all encodings", "anchors": ["resources/general_msg_utils.py: validate_get_ca_certs"]}
{"id": "C140", "title": "Root CA certificate update", "statement": "validate_get_root_ca_cert_update accepts iff the value is absent or is exactly a RootCaKeyUpdate whose new certificate is signed by itself, whose newWithOld is signed by the old root and whose oldWithNew, if present, is signed by the new root and has the key of the old one, and whose new certificate passes the linter.", "quantifier": "all messages, updates, old certificates and outcomes of verification", "why_tests_cant": "all combinations of certificates", "anchors": ["resources/general_msg_utils.py: validate_get_root_ca_cert_update, process_root_ca_update, validate_root_ca_key_update_value_structure"]}
{"id": "C141", "title": "Certificate request template", "statement": "validate_get_certificate_request_template accepts iff the value is exactly a template with one key specification that is an RSA key of at least 2048 bits or an algorithm the suite accepts, and without any field that has to be absent.", "quantifier": "all messages, templates and key specifications", "why_tests_cant": "all combinations of fields and controls", "anchors": ["resources/general_msg_utils.py: validate_get_certificate_request_template, check_controls_for_cert_temp, _check_cert_template_for_cert_temp_req, _validate_id_reg_ctrl_alg_id"]}
{"id": "C142", "title": "CRL answers", "statement": "validate_crl_update_retrieval accepts iff the value is absent and may be, or is exactly a list of the expected number of valid CRLs. validate_current_crl accepts iff the value is exactly a CRL that passes the linter.", "quantifier": "all messages, lists of CRLs and outcomes of their checks", "why_tests_cant": "all lists", "anchors": ["resources/general_msg_utils.py: validate_crl_update_retrieval, validate_current_crl, _validate_crls"]}
{"id": "C143", "title": "Answers with key types, algorithms, languages and encryption certificates", "statement": "The validators of the signing and encryption key types, the preferred symmetric algorithm, the language tags, the revocation passphrase and the protocol encryption certificate accept exactly the well-formed answers, and return the names of the algorithms in order and the certificate.", "quantifier": "all messages, algorithms, certificates and outcomes of verification", "why_tests_cant": "all lists of algorithms", "anchors": ["resources/general_msg_utils.py: validate_signing_key_types, validate_encr_and_key_agreement_types, validate_preferred_sym_alg, validate_supported_language_tags, validate_revocation_passphrase_response, validate_ca_protocol_encr_cert"]}
{"id": "C144", "title": "KEM ciphertext exchange in general messages", "statement": "build_genp_kem_ct_info_from_genm answers iff the request is a genm of the expected size with the type and a certificate with a KEM key; the answer holds the ciphertext encapsulated for it. validate_genp_kem_ct_info returns the secret decapsulated from the answer. Together both sides hold the same secret.", "quantifier": "all messages, KEM algorithms, key pairs and ciphertexts", "why_tests_cant": "all key pairs and messages", "anchors": ["resources/general_msg_utils.py: build_genp_kem_ct_info_from_genm, validate_genp_kem_ct_info"]}
{"id": "C145", "title": "What the Mock CA answers to general messages", "statement": "The Mock CA answers a general message iff it has at least one entry (exactly one with Lightweight CMP), each of a type it supports, without a value where none is allowed and with a well-formed one where one is needed. Each entry is answered, in order, with the type and value that belong to it. Every other message is refused.", "quantifier": "all configurations, states, messages and lists of entries", "why_tests_cant": "all lists of entries", "anchors": ["mock_ca/general_msg_handler.py: GeneralMessageHandler.process_general_msg, _process_general_message_entry, _check_general_message"]}
{"id": "C146", "title": "The state of the general message handler", "statement": "A message adds to the passphrases those it carries, in order; touches no other transaction's KEM secret; never takes back that the encryption certificates are to be sent, and asks for it when the protocol encryption certificate is asked for. With Lightweight CMP a refused message changes nothing. Removing a secret removes it for this transaction only; the encryption certificates are appended once.", "quantifier": "all configurations, states and messages, any number of entries", "why_tests_cant": "all histories of entries, failing at any one", "anchors": ["mock_ca/general_msg_handler.py: GeneralMessageHandler.process_general_msg, patch_genp_message_for_extra_certs, remove_shared_secert"]}
{"id": "C147", "title": "The Mock CA's answers pass the checks of the client", "statement": "The answers of the Mock CA to a question for the template, languages, symmetric algorithm, key types, passphrase, current CRL, CA certificates and root update are accepted by the validator for that answer, and the KEM secret it keeps is the one the client derives.", "quantifier": "all configurations, states, libraries with faithful codecs, and messages with one entry", "why_tests_cant": "all configurations and keys", "anchors": ["mock_ca/general_msg_handler.py: GeneralMessageHandler.process_general_msg", "resources/general_msg_utils.py: validate_get_certificate_request_template, validate_get_ca_certs, validate_genp_kem_ct_info"]}
{"id": "C148", "title": "CRL update retrieval by the Mock CA", "statement": "The Mock CA answers a list of CRL statuses with its current CRL, and nothing else, iff an entry names the CA and has no time or one more than 25 hours ago; otherwise the answer has no value. An empty list is refused.", "quantifier": "all lists of CRL statuses, times and revocation databases", "why_tests_cant": "all lists and times", "anchors": ["mock_ca/general_msg_handler.py: GeneralMessageHandler.process_crl_update_retrieval, _process_crl_status"]}
{"id": "C149", "title": "The answer to a challenge is its number", "statement": "For every challenge that build_popdecc_from_request makes for a key, process_pkimessage_with_popdecc with the private key answers with the number of the challenge, the transaction of the message and the exchanged nonces. The Mock CA has this number open for this transaction.", "quantifier": "all keys, numbers, names, witnesses, versions 2 and 3, and all correct encryption libraries", "why_tests_cant": "all keys and numbers, both sides together", "anchors": ["resources/ca_ra_utils.py: build_popdecc_from_request, prepare_challenge, prepare_challenge_enc_rand", "resources/extra_issuing_logic.py: process_pkimessage_with_popdecc", "mock_ca/challenge_handler.py: ChallengeHandler._process_challenge"]}
{"id": "C150", "title": "Which challenges an end entity answers", "statement": "process_pkimessage_with_popdecc answers iff the message is a popdecc of the expected size, its version fits the kind of all challenges, the chosen challenge is of the expected kind, an encrypted one is addressed with the NULL-DN and the identifier of the request, it can be decrypted to exactly a Rand, and the sender in it is the expected one.", "quantifier": "all messages, keys, indices, certificates and outcomes of decryption", "why_tests_cant": "all messages", "anchors": ["resources/extra_issuing_logic.py: process_pkimessage_with_popdecc, validate_popdecc_version, validate_rid_for_encrypted_rand, process_simple_challenge, _process_encrypted_rand, _may_get_kari_public_key"]}
{"id": "C151", "title": "Contents of a challenge", "statement": "A challenge holds the given number (or a drawn one if none or 0 is given), the name of the sender, and with a hash function the hash of the four bytes of the number as witness; a wrong witness differs in the first byte. It is encrypted data iff the version is 3.", "quantifier": "all requests, numbers, names, hash functions and versions", "why_tests_cant": "all numbers and names", "anchors": ["resources/ca_ra_utils.py: build_popdecc_from_request, _prepare_rand, _prepare_witness_val, prepare_challenge, prepare_challenge_enc_rand"]}
{"id": "C152", "title": "The open challenges of the Mock CA", "statement": "When the Mock CA sends a challenge, its number and transaction are open afterwards, all earlier ones stay open and nothing else is added. The key of the CA is that for the kind of proof and key. In version 3 the request is not protected with a MAC.", "quantifier": "all states, configurations and requests", "why_tests_cant": "all histories of open challenges", "anchors": ["mock_ca/challenge_handler.py: ChallengeHandler._process_challenge, _get_ca_key"]}
{"id": "C153", "title": "The out-of-band hash of a CA certificate", "statement": "prepare_oob_cert_hash holds the hash, issuer and serial number of the certificate. validate_oob_cert_hash accepts iff the hash is right, issuer and serial number are those of the certificate, it is signed by itself, has equal subject and issuer alternative names if it has no name, and passes the linter.", "quantifier": "all certificates, hashes and hash functions", "why_tests_cant": "all certificates and hashes", "anchors": ["resources/ca_ra_utils.py: prepare_oob_cert_hash, validate_oob_cert_hash"]}
{"id": "C154", "title": "Which responses of a CA pass the check of the body", "statement": "validate_ca_message_body accepts iff the message is an ip, cp, kup or ccp of the expected size, the response has the right certReqId, and it is either granted without failInfo, with a certificate, a private key iff the CA made it (EnvelopedData in version 3 only) and caPubs that are trust anchors of a valid chain, or rejected without certificate and caPubs.", "quantifier": "all messages, numbers of responses, indices and outcomes of chain checks", "why_tests_cant": "all messages and indices, and the effect on the message", "anchors": ["resources/checkutils.py: validate_ca_message_body, validate_certReqId", "resources/cmputils.py: get_pkistatusinfo"]}
{"id": "C155", "title": "The key pair, the certificate and caPubs of a response", "statement": "validate_certified_key_pair_structure, the two checks for a private key and an encrypted certificate, get_cert_from_pkimessage and validate_ca_msg_ca_pubs_field accept or answer exactly as their documentation says, and the certificate can be read repeatedly.", "quantifier": "all messages and indices", "why_tests_cant": "all messages and the effect on them", "anchors": ["resources/checkutils.py: validate_certified_key_pair_structure, check_if_response_contains_private_key, check_if_response_contains_encrypted_cert, validate_ca_msg_ca_pubs_field", "resources/cmputils.py: get_cert_from_pkimessage, get_cert_response_from_pkimessage"]}
{"id": "C156", "title": "Cross certification responses and the confirmation of the CA", "statement": "validate_cross_certification_response accepts iff the message is a ccp with one response, is signed, has extraCerts and passes the check of the body. validate_pki_confirmation_message accepts iff the message is a pkiconf, has extraCerts unless they may be cached, follows a CA message, and its protection fits that of the CA message.", "quantifier": "all messages and kinds of protection", "why_tests_cant": "all combinations", "anchors": ["resources/checkutils.py: validate_cross_certification_response, validate_pki_confirmation_message"]}
{"id": "C157", "title": "Revocation is checked before a hybrid certificate is issued", "statement": "HybridIssuingHandler.is_revoked_for_issuing accepts a request iff the certificate of its signer is not hybrid, or is a hybrid one that is, like the certificates it comes with, neither revoked nor updated.", "quantifier": "all requests, certificates, kinds of hybrid certificates and states of the revocation database", "why_tests_cant": "all states of the database and all kinds", "anchors": ["mock_ca/hybrid_handler.py: HybridIssuingHandler.is_revoked_for_issuing"]}
{"id": "C158", "title": "Revocation of chameleon certificates and of signers of requests with several signatures", "statement": "A chameleon certificate passes iff it is neither revoked nor updated, and if both certificates were used, neither is its delta certificate. The delta key of a request passes iff the database does not know it as bad. A request with several signatures passes iff its certificates do.", "quantifier": "all requests, certificates and states of the revocation database", "why_tests_cant": "all states of the database", "anchors": ["mock_ca/hybrid_handler.py: ChameleonHandler.is_revoked, ChameleonHandler.is_delta_key_revoked, HybridIssuingHandler.is_revoked_for_request"]}
{"id": "C159", "title": "Making and publishing certificates of the Sun hybrid scheme", "statement": "A request either changes nothing, or exactly one certificate is made for it and published with its alternative key and signature under its serial number, where the locations in it point. A response with an encrypted certificate never carries it in the clear and always needs a confirmation. Other entries of the published state are not changed.", "quantifier": "all requests, keys, states and outcomes of the builders", "why_tests_cant": "all requests and histories of the published state", "anchors": ["mock_ca/hybrid_handler.py: SunHybridHandler.process_request, SunHybridHandler._add_to_state", "pq_logic/hybrid_issuing.py: build_sun_hybrid_cert_from_request, build_enc_cert_response"]}
{"id": "C160", "title": "Protection of responses and serial numbers in the Sun hybrid scheme", "statement": "A request with a MAC is answered with the same MAC, any other with a signature of the traditional key; the certificates in extraCerts come in a fixed order, that of the CA first for a signature. A serial number is the first of those drawn that is not in use.", "quantifier": "all requests, chains, states and sequences of random numbers", "why_tests_cant": "all sequences of random numbers and all states", "anchors": ["mock_ca/hybrid_handler.py: SunHybridHandler.sign_response", "mock_ca/ca_handler.py: _get_serial_number, process_sun_hybrid", "mock_ca/prot_handler.py: get_same_mac_protection"]}
{"id": "C161", "title": "Every request for the Sun hybrid scheme is answered and recorded", "statement": "An answer to a request for a certificate means that the request passed the checks, that one certificate was made under an unused number and published, and that it is recorded as confirmed iff implicit confirmation was asked for and the certificate is not encrypted. Without an answer no certificate is recorded. Every other request is answered by an error message.", "quantifier": "all requests, states, random numbers and outcomes of the library", "why_tests_cant": "all requests and histories", "anchors": ["mock_ca/ca_handler.py: process_sun_hybrid, _after_request", "mock_ca/hybrid_handler.py: SunHybridHandler.validate_for_rev_request"]}
{"id": "C162", "title": "The extensions of a new certificate", "statement": "check_extensions accepts a request iff its extensions are known (or unknown ones are allowed) and every check of an extension passes. For each of the six types that are looked at the certificate gets at most one extension; the extensions of the CA override those of the request. No extension of an accepted request is lost.", "quantifier": "all requests, lists of extensions of the CA, with duplicates, and outcomes of the checks", "why_tests_cant": "all lists and orders of extensions", "anchors": ["resources/certbuildutils.py: check_extensions, _get_not_included_extensions, extensions_contains_extn_id, _contains_unknown_extensions"]}
{"id": "C163", "title": "Which cross-signed certificates pass", "statement": "validate_ca_cross_signed_cert accepts iff both certificates are of a CA, subject and issuer differ, the subject is not that of the issuing CA, the key identifiers differ and the authority key identifier is that of the issuer, the signature verifies, and the certificate fits the template and has its extensions.", "quantifier": "all certificates, templates and outcomes of the signature check", "why_tests_cant": "all pairs of certificates and templates", "anchors": ["resources/certutils.py: validate_ca_cross_signed_cert, _validate_cross_signed_cert, _validate_key_identifiers, is_ca_cert"]}
{"id": "C164", "title": "Passwords of a fixed size", "statement": "get_password_in_size answers with the password itself for algorithms without a fixed size of the key, and otherwise with the password repeated up to exactly this size; an empty password is refused.", "quantifier": "all passwords, names of algorithms and sizes", "why_tests_cant": "passwords of every length", "anchors": ["resources/utils.py: get_password_in_size, expand_string_to_length"]}
{"id": "C165", "title": "Recipient infos for a key or a password", "statement": "prepare_recip_info makes key transport for an RSA key, key agreement for an ECDH key, KEM recipient info for a KEM key, and otherwise a password recipient info; the recipient takes out of it exactly the content encryption key that was given, or the random one. An unsupported key, a missing password and a missing private key are refused.", "quantifier": "all keys, passwords, content encryption keys, identifiers and outcomes of the single builders", "why_tests_cant": "all combinations of the optional arguments", "anchors": ["resources/envdatautils.py: prepare_recip_info, parse_recip_info"]}
{"id": "C166", "title": "The encrypted key of a proof of possession", "statement": "prepare_enc_key_for_popo makes enveloped data that the CA opens: the recipient info has the key of the content. The recipient is named by the certificate of the CA for a KEM key and by the CMP protection certificate otherwise, and the version is that of RFC 5652.", "quantifier": "all private keys that are sent, CA certificates, recipient infos, identifiers and content encryption keys", "why_tests_cant": "all combinations of the optional arguments and all keys", "anchors": ["resources/envdatautils.py: prepare_enc_key_for_popo, _prepare_rid_for_enc_key, prepare_originator_with_rid, parse_encrypted_key_for_popo, prepare_enveloped_data"]}
{"id": "C167", "title": "Which signed PKIMessages pass", "statement": "check_pkimessage_signature_protection accepts a message iff its algorithm is a known signature algorithm that fits, the sender and senderKID are those of the first certificate of extraCerts, and this certificate verifies the signature over the protected part.", "quantifier": "all messages, lists of certificates, settings and outcomes of the verification", "why_tests_cant": "all messages and all positions of the right certificate", "anchors": ["resources/checkutils.py: check_pkimessage_signature_protection, find_right_cert_pos, check_sender_cmp_protection, validate_senderkid_for_cmp_protection", "resources/certutils.py: verify_signature_with_cert"]}
