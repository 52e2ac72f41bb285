import json
P=[]
def p(title,statement,quantifier,why,anchors):
    P.append(dict(id="C%02d"%(len(P)+1),title=title,statement=statement,quantifier=quantifier,why_tests_cant=why,anchors=anchors))
MF="mock_ca/mock_fun.py"
# ---- CA database
p("Certificate life-cycle follows the documented transition graph",
  "Whatever sequence of add_cert / change_cert_state calls (including failing ones) is made on the certificate database, the state reported by get_cert_state for a certificate moves only along the edges: unknown->NOT_CONFIRMED|CONFIRMED (add), NOT_CONFIRMED->CONFIRMED, CONFIRMED|REVIVED->REVOKED, REVOKED->REVIVED, and any->UPDATED|UPDATED_BUT_NOT_CONFIRMED (key update). A rejected call changes nothing.",
  "every finite history of database API calls, every digest function, every certificate",
  "the set of histories is infinite; unit tests exercise a handful of one- or two-step transitions",
  [MF+": CertificateDB.add_cert, change_cert_state, _process_rev_cert, _process_update_cert, get_cert_state"])
p("A revoked certificate stays revoked until it is explicitly revived",
  "Once change_cert_state(cert, REVOKED) succeeded, every later state of the certificate is REVOKED until a successful change to REVIVED. (Known deviation: a key-update transition is accepted from the REVOKED state.)",
  "every history of database calls after the revocation",
  "needs an invariant over all later histories, including the key-update calls tests never issue on a revoked certificate",
  [MF+": CertificateDB.change_cert_state, _process_update_cert"])
p("The certificate database is append-only",
  "No API call removes or reorders an entry or changes the stored certificate, its digest or its issue date; a failed call leaves the database unchanged; the number of entries grows by exactly one per successful add_cert.",
  "every history of database API calls",
  "quantifies over all histories and all positions of the list",
  [MF+": CertificateDB.add_cert, change_cert_state"])
p("issued / revoked / updated / not-confirmed views partition the database",
  "issued_certs lists exactly the certificates whose state is neither NOT_CONFIRMED nor UPDATED_BUT_NOT_CONFIRMED, revoked_certs exactly the REVOKED ones, updated_certs exactly the UPDATED and UPDATED_BUT_NOT_CONFIRMED ones and not_confirmed_certs exactly the NOT_CONFIRMED ones; revoked, updated and not-confirmed never share an entry.",
  "every reachable database",
  "a statement about every database content",
  [MF+": CertificateDB.issued_certs, revoked_certs, updated_certs, not_confirmed_certs"])
p("OCSP answers agree with the certificate database",
  "An OCSP request for serial number n answers 'revoked' when some REVOKED certificate has serial n, 'good' when none is revoked/updated and an issued (or extra) certificate has serial n, and 'unauthorized' when no certificate has that serial. (Known deviation: for a certificate that is only updated the query raises instead of answering 'revoked'.)",
  "every database and every serial number",
  "the answer depends on the whole database content",
  [MF+": CertRevStateDB._check_ocps_request_cert_status, get_ocsp_response, CertificateDB.get_ocsp_response"])
p("CRL content and CRL numbers",
  "CertificateDB.get_current_crl lists exactly the serial numbers of revoked and updated certificates. CRL numbers of successive CRLs strictly increase. (Known deviations: the number kept by CertificateDB never increases; the /crl endpoint reads a revocation store nothing writes.)",
  "every database, every sequence of CRL requests interleaved with any requests",
  "monotonicity over unbounded sequences of requests",
  [MF+": CertificateDB.get_current_crl, CertRevStateDB.get_crl_response","mock_ca/ca_handler.py: CAHandler.get_current_crl"])
p("removeFromCRL takes exactly one matching entry off the revocation list",
  "After add_rev_entry with reason removeFromCRL the revocation list is the old list without its first entry for that certificate, every other entry is kept in order; any other reason appends; when each certificate is listed at most once the removed certificate is no longer reported as revoked.",
  "every revocation list and every sequence of add_rev_entry calls",
  "a statement over all lists, with duplicates",
  [MF+": RevokedEntryList.add_entry, remove, is_revoked"])
p("A revoked key is recognised in every hybrid/composite packaging",
  "contains_key answers true for a key k when some revoked certificate carries k, or a hybrid key having k as a component; and for a hybrid key when it or either component is carried by (or is a component of) a revoked certificate; otherwise false.",
  "every revocation list, every plain or hybrid key",
  "combinatorial over packagings of keys",
  [MF+": RevokedEntryList.compromised_keys, _contains, contains_key"])
p("Requests that carry a compromised key are detected whatever the position of the key",
  "check_request_for_compromised_key returns true for an ir/cr/kur/p10cr request iff one of its templates contains a revoked key. (Known deviations: the scan stops at the first template without public key; ccr requests are never scanned.)",
  "every request with any number of templates",
  "requests of arbitrary length and order",
  [MF+": CertRevStateDB.check_request_for_compromised_key"])
p("Key-reuse check is complete and symmetric",
  "contains_pub_key(key, sender) is true iff some issued or not-yet-confirmed certificate of the same subject shares the key or a component with it; a key is never reported as used because of a certificate of another subject. (Known deviation: traditional component vs PQ component.)",
  "every database, key and sender name",
  "all combinations of plain/hybrid keys",
  [MF+": KeySecurityChecker._compare_pub_keys, contains_pub_key, check_cert_status, MockCAState.contains_pub_key"])
p("Transaction identifiers are never reused while in use",
  "store_transaction_certificate and add_tx_id succeed only for a transaction id that is not in use and mark it in use; an id already in use is always rejected, and the rejected call changes nothing.",
  "every history of CA-state operations",
  "all histories, including removal and re-use of ids",
  [MF+": MockCAState.add_tx_id, remove_tx_id, store_transaction_certificate"])
p("A KEM shared secret authenticates at most one non-confirmation request",
  "For KEM-based MAC protection: a request whose transaction id has no stored secret is rejected; once a request under a secret was processed successfully, every later request of that transaction other than certConf is rejected; a failed request leaves the secret usable.",
  "every sequence of KEM exchanges and requests, every MAC function",
  "all interleavings of transactions",
  [MF+": KEMSharedSecretList.verify_pkimessage_protection, may_update_state, update_shared_secret_state, add_shared_secret"])
p("A POP challenge can be answered at most once and only with its own value",
  "A popdecr message is accepted only if a challenge is outstanding for that transaction and every response integer equals the stored challenge; after it was processed the same transaction's challenge is gone, so a replayed answer is rejected.",
  "every sequence of challenges and answers",
  "all interleavings of transactions and replays",
  ["mock_ca/challenge_handler.py: ChallengeHandler"])
p("A stateful-signature leaf index is never accepted twice for a key",
  "Along any run of the CA, if a request signed with a stateful hash-based key was accepted with leaf index i, no later request under the same key with index i is accepted; an index outside the key's range is never accepted.",
  "every history of requests, keys and indices",
  "double use may be separated by arbitrarily many requests",
  ["mock_ca/stfl_validator.py","mock_ca/operation_dbs.py: StatefulSigState"])
p("certConf is accepted only for the transaction it belongs to, once",
  "process_cert_conf answers pkiConf only if the transaction id has certificates waiting, the nonces match the CA's response and each certHash matches an issued certificate; afterwards the certificates are CONFIRMED, the transaction is closed and a second certConf for it is rejected.",
  "every history of cert requests and certConf messages",
  "interleaving of many transactions, replays, partial rejections",
  ["mock_ca/cert_conf_handler.py: CertConfHandler, CertConfState"])
p("Revoked or updated certificates cannot sign new requests",
  "is_not_allowed_to_request raises for every request signed by a certificate that is revoked, or updated (except the cases the timeout rules allow), for every body type, and does not raise for a confirmed certificate.",
  "every database, body type, time",
  "all combinations of state, body and time stamps",
  ["mock_ca/rev_handler.py: RevocationHandler.is_not_allowed_to_request",MF+": UpdateCertDB.validate_is_updated"])
p("Revocation requests are all-or-nothing and only affect the named certificates",
  "Processing an rr message with revocation reason moves the named confirmed certificates to REVOKED, with removeFromCRL moves revoked ones to REVIVED; certificates not named keep their state; a request that is refused changes nothing.",
  "every database and every rr message with any number of entries",
  "arbitrary number of entries, some valid and some not",
  ["mock_ca/rev_handler.py: RevocationHandler.process_revocation_request, mark_as_revoked, revive_cert"])
p("Nested messages are dispatched by the number of inner messages",
  "A nested message with no inner message is refused, with exactly one is treated as added protection and with two or more as batch whose response contains one response per inner request, in order; batched nonces and transaction ids must be pairwise distinct.",
  "every nested message with any number of inner messages",
  "unbounded batches",
  ["mock_ca/nested_handler.py: NestedHandler.process_nested_request, _check_nonces, process_batched_request"])
p("Error responses are bound to the request",
  "Whatever request fails, the response echoes the request's transactionID and sets recipNonce to the request's senderNonce; the body is the response type of the request or an error message, and the failure bits are those of the raised error.",
  "every request and every exception",
  "all failure paths",
  ["mock_ca/ca_handler.py: CAHandler.process_normal_request, _build_error_from_exception"])
p("Key-update history is a chain inside the database",
  "get_updated_history returns a list that starts with the certificate, in which each next certificate is the stored replacement of the previous one, of at most eleven elements, whatever cycles the database contains.",
  "every database content",
  "cyclic and long chains",
  [MF+": CertificateDB.get_updated_history"])
# ---- ML-KEM
F3="pq_logic/fips/fips203.py"
p("ML-KEM byte encoding round-trips",
  "byte_decode(byte_encode(f, d), d) = f for every list of 256 integers below 2^d (below q for d = 12) and byte_encode(byte_decode(b, d), d) = b for every byte string of 32*d bytes (d < 12); bits_to_bytes and bytes_to_bits are mutually inverse.",
  "all polynomials, all byte strings, all d in 1..12",
  "2^3072 inputs", [F3+": bits_to_bytes, bytes_to_bits, byte_encode, byte_decode"])
p("ML-KEM compression error bound",
  "For every x in Z_q and d < 12, decompress(compress(x)) differs from x modulo q by at most round(q / 2^(d+1)), and compress(decompress(y)) = y for every y < 2^d.",
  "all field elements and all d", "must hold for every coefficient, otherwise decryption fails silently",
  [F3+": compress, decompress"])
p("ML-KEM NTT is inverted by the inverse NTT",
  "ntt_inverse(ntt(f)) = f for every polynomial with 256 coefficients in [0,q).",
  "all 3329^256 polynomials","linear maps cannot be sampled to certainty against table typos",[F3+": ntt, ntt_inverse, ML_KEM_ZETA_NTT"])
p("ML-KEM NTT multiplication is ring multiplication",
  "ntt_inverse(multiply_ntts(ntt(f), ntt(g))) is the product of f and g in Z_q[X]/(X^256+1).",
  "all pairs of polynomials","bilinear identity over 3329^512 pairs",[F3+": multiply_ntts, ML_KEM_ZETA_MUL"])
p("ML-KEM sampling stays in range",
  "sample_poly_cbd returns 256 coefficients each congruent to a value in [-eta, eta], and sample_ntt returns 256 coefficients in [0,q), whatever the byte stream.",
  "all byte strings / XOF streams","all byte strings",[F3+": sample_poly_cbd, sample_ntt"])
p("ML-KEM decapsulation inverts encapsulation",
  "decaps(dk, c) = K whenever (K, c) = encaps(ek, m) for the matching key pair and the accumulated decryption noise is below q/4 (the FIPS 203 failure event is excluded); key generation succeeds unless an XOF stream runs out, keys have the standard sizes and the private key yields its public key.",
  "all seeds d, z, messages m, all hash/XOF functions, all three parameter sets","cryptographic-size input space",[F3+": keygen_internal, encaps_internal, decaps_internal, k_pke_keygen, k_pke_encrypt, k_pke_decrypt"])
p("ML-KEM implicit rejection",
  "decaps never fails on a well-sized ciphertext: it returns either the re-encryption-confirmed key or exactly J(z || c); a ciphertext that is not the re-encryption of its decryption yields J(z || c).",
  "all ciphertexts of the right length, valid or not","all ciphertexts",[F3+": decaps_internal"])
# ---- ML-DSA
F4="pq_logic/fips/fips204.py"
p("ML-DSA integer/bit packing round-trips",
  "simple_bit_unpack(simple_bit_pack(w, b), b) = w for coefficients in [0,b], bit_unpack(bit_pack(w, a, b), a, b) = w for coefficients in [-a,b]; integer_to_bits / bits_to_integer / bits_to_bytes / bytes_to_bits are inverse.",
  "all polynomials and all bounds","astronomical domain",[F4+": simple_bit_pack, bit_pack, simple_bit_unpack, bit_unpack"])
p("ML-DSA hint encoding is injective and rejects malformed input",
  "hint_bit_unpack(hint_bit_pack(h)) = h for every hint of weight at most omega, and every byte string accepted by hint_bit_unpack re-encodes to itself (so hints cannot be mauled).",
  "all hints and all byte strings of length omega+k","strong unforgeability depends on it for every string",[F4+": hint_bit_pack, hint_bit_unpack"])
p("ML-DSA key and signature codecs round-trip",
  "pk_decode(pk_encode(x)) = x, sk_decode(sk_encode(x)) = x and sig_decode(sig_encode(x)) = x for all in-range components, and the encodings have the lengths the standard prescribes.",
  "all keys and signatures, all three parameter sets","astronomical domain",[F4+": pk_encode, pk_decode, sk_encode, sk_decode, sig_encode, sig_decode"])
p("ML-DSA rounding functions satisfy their defining equations",
  "power2round and decompose return (r1, r0) with r = r1*2^d + r0, r = r1*alpha + r0 (mod q) and r0 in the prescribed centred range; use_hint(make_hint(z, r), r) = high_bits(r + z) when |z| <= gamma2.",
  "all r, z in Z_q and both gamma2 values","q^2 pairs",[F4+": modpm, power2round, decompose, high_bits, low_bits, make_hint, use_hint"])
p("ML-DSA NTT is inverted by the inverse NTT and is multiplicative",
  "ntt_inverse(ntt(w)) = w modulo q and ntt_inverse(mul_ntt(ntt(f), ntt(g))) is the negacyclic product of f and g.",
  "all polynomials","table typos and reduction errors",[F4+": ntt, ntt_inverse, mul_ntt, ML_DSA_ZETAS"])
p("ML-DSA signatures verify",
  "Every signature returned by sign (for any key pair, message, context of at most 255 bytes and randomness) is accepted by verify under the matching public key with the same message and context; contexts longer than 255 bytes are refused on both sides.",
  "all seeds, messages, contexts, randomness and XOFs","cryptographic-size input space, rejection loop",[F4+": sign, verify, sign_internal, verify_internal, keygen_internal"])
# ---- SLH-DSA
F5="pq_logic/fips/fips205.py"
p("SLH-DSA base-2^b digits",
  "base_2b returns out_len digits below 2^b which are the leading bits of the byte string; to_int/to_byte are inverse.",
  "all byte strings and all b, out_len","all strings",[F5+": base_2b, to_int, to_byte"])
p("SLH-DSA signatures verify",
  "slh_verify accepts every signature produced by slh_sign for the matching key, message and context; WOTS+, XMSS, hypertree and FORS public keys recomputed from signatures equal the generated ones, for every hash function.",
  "all keys, messages, contexts, all 12 parameter sets and all hash functions","trees of height up to 68 cannot be enumerated",[F5+": slh_sign_internal, slh_verify_internal, ht_sign, ht_verify, xmss_sign, wots_sign, fors_sign"])
p("SLH-DSA pre-hash signatures verify",
  "hash_slh_verify accepts what hash_slh_sign produced. (Known deviation: arguments to the internal signer are swapped.)",
  "all keys, messages, contexts","all inputs",[F5+": hash_slh_sign, hash_slh_verify"])
p("SLH-DSA address fields are independent",
  "Setting one address field does not disturb any other field that the address type uses; set_type_and_clear zeroes exactly the type-specific fields; compressed addresses of different nodes differ.",
  "all addresses and field values in range","collisions between addresses cannot be sampled",[F5+": ADRS"])
# ---- Frodo
FR="pq_logic/fips/frodokem.py"
p("FrodoKEM packing and encoding round-trip",
  "unpack(pack(M)) = M for entries below 2^D and decode(encode(m) + E) = m whenever every noise entry is smaller than q/2^(B+1).",
  "all matrices, all messages and noise","all matrices",[FR+": pack, unpack, encode, decode"])
p("FrodoKEM decapsulation inverts encapsulation",
  "kem_decaps(sk, ct) = ss whenever (ct, ss) = kem_encaps(pk) under the matching key and the noise is below the decoding threshold; a ciphertext whose re-encryption differs yields the implicit-rejection secret.",
  "all seeds, hash functions, parameter sets","cryptographic-size input space",[FR+": kem_keygen, kem_encaps, kem_decaps"])
# ---- hybrid keys
p("Hybrid and composite KEMs agree on the secret",
  "For X-Wing, Chempat, composite KEM: decaps of an honest encapsulation returns the same shared secret for any correct component KEMs, and the ciphertext splits uniquely into its components.",
  "all component KEMs, keys, ciphertexts","all component implementations",["pq_logic/keys/xwing.py","pq_logic/keys/chempat_key.py","pq_logic/keys/composite_kem.py"])
p("Composite signatures need both components",
  "CompositeSig verify accepts iff both component signatures verify on the domain-separated message; sign then verify succeeds; the message representative is injective in (context, message-digest) for a fixed algorithm.",
  "all messages, contexts and component schemes","all inputs",["pq_logic/keys/composite_sig.py"])
p("HSS/LMS configurations: level rules and leaf index",
  "The index read from an HSS signature is its position among all signatures of the key: the mixed-radix number of the per-level leaf numbers, different for different leaves, one more for the next signature; signatures of another depth or with a leaf outside the tree are refused. validate_hss_key_levels accepts exactly the lists of one to eight levels with one hash function, output size and Winternitz parameter. A public key is loaded iff its codes name one parameter set and its length fits, and sig_size is the length of its signatures.",
  "all signatures and level lists","all level counts",["pq_logic/keys/stateful_sig_keys.py: compute_hss_signature_index","pq_logic/keys/hss_validation.py"])
# ---- checks used by test authors
p("Nonce-diversity keyword decides exactly pairwise Hamming distance",
  "nonces_must_be_diverse passes iff every two nonces differ in at least the given number of bit positions; nonces_must_be_unique passes iff no two nonces are equal.",
  "all lists of nonces","all lists",["resources/utils.py: nonces_must_be_diverse, nonces_must_be_unique"])
p("Manipulating a signature or MAC always changes it",
  "manipulate_first_byte returns a string of the same length that differs from its argument in exactly the first byte; only the empty string is refused; applying it twice gives the original back exactly if the first byte is 0 or 1.",
  "all byte strings","all byte strings",["resources/utils.py: manipulate_first_byte"])
p("Header binding checks",
  "validate_transaction_id / validate_sender_and_recipient_nonce pass iff the response carries the request's transactionID and recipNonce equals the request's senderNonce (with the length rules).",
  "all header pairs","all header pairs",["resources/checkutils.py: validate_transaction_id, validate_sender_and_recipient_nonce"])
p("Certificate-chain construction",
  "build_chain_from_list returns a list that starts with the end-entity certificate, in which every certificate is issued by its successor, of bounded length and without endless loops.",
  "all certificate pools including cyclic ones","all pools",["resources/certutils.py: build_chain_from_list, build_cmp_chain_from_pkimessage"])
p("Certificates handed out are recorded, refused requests leave the database unchanged",
  "If the CA answers a certificate request (ir, cr, kur, p10cr, ccr) positively, every certificate in the response is afterwards in the certificate database, as confirmed if the response grants implicit confirmation and as not confirmed otherwise, and nothing else was added; if it answers negatively the database is unchanged.",
  "every state of the CA, every request, every outcome of the checks that are not part of the bookkeeping",
  "failure may strike at any point of the processing, in any state",
  ["mock_ca/cert_req_handler.py: CertReqHandler.process_after_request, process_cert_request","mock_ca/mock_fun.py: MockCAState.add_certs, add_may_update_cert"])
p("The state of a certificate changes only on the authority of a suitable message",
  "Whatever request the CA receives (nested ones included), a certificate whose state differs afterwards was moved by a message of the right type: into the database by a certificate request, to CONFIRMED by a certConf or a request with implicit confirmation, to REVOKED or REVIVED by an rr, to UPDATED by a kur signed with it or the certConf of such an update.",
  "every history of requests, every further request, every certificate",
  "a forbidden transition may need a long history and a nested message",
  ["mock_ca/ca_handler.py: CAHandler.process_normal_request","mock_ca/mock_fun.py: MockCAState"])
p("Serving requests never loses or rewrites a database entry",
  "Along any history of requests the entries of the certificate database stay in place with the same certificate, digest and issue date; new entries are only appended.",
  "every two histories, the second continuing the first",
  "all histories",
  ["mock_ca/ca_handler.py: CAHandler.process_normal_request","mock_ca/mock_fun.py: CertificateDB"])
p("ML-DSA verification decides the FIPS 204 equation",
  "For a public key and a signature of the standard lengths, verify returns True exactly when the decoded z is short, the hint is well-formed and the challenge equals H(mu || w1Encode(UseHint(h, A z - c t1 2^d))) computed in the coefficient ring; a truncated signature is never accepted. (Bytes after the signature are ignored: the function has no length check of its own.)",
  "all public keys, messages, contexts, signatures, hash functions and parameter sets",
  "no accepted forgery shows up by testing; soundness needs every input",
  ["pq_logic/fips/fips204.py: verify, verify_internal, sig_decode"])
p("ML-DSA sampled values have the prescribed shape",
  "sample_in_ball returns 256 coefficients of which exactly tau are nonzero, each 1 or -1; rejection sampling returns 256 coefficients in [0,q) or [-eta,eta]; expand_mask returns coefficients in (-gamma1, gamma1].",
  "all byte streams",
  "a wrong loop bound would show up only on rare streams",
  ["pq_logic/fips/fips204.py: sample_in_ball, rej_ntt_poly, rej_bounded_poly, expand_mask"])
p("ML-DSA contexts, messages and modes are never confused",
  "The string that is signed determines whether the message was pre-hashed, the context, the pre-hash function, and the message or its digest: no two different (mode, context, message) triples are signed as the same string.",
  "all contexts of at most 255 bytes, all messages, all pre-hash functions",
  "a collision between two formats can hide behind any pair of inputs",
  ["pq_logic/fips/fips204.py: sign, verify, hash_ml_dsa_sign, hash_ml_dsa_verify"])
p("SLH-DSA digit vectors of different messages are incomparable",
  "The base-w digits plus checksum that a WOTS+ signature encodes never dominate each other: for two different messages each vector has a position where it is strictly smaller than the other, so a signature on one message cannot be advanced into a signature on another.",
  "all pairs of different n-byte messages, all twelve parameter sets",
  "all pairs of messages",
  ["pq_logic/fips/fips205.py: wots_sign, wots_pk_from_sig"])
p("An accepted SLH-DSA signature is the key owner's, or breaks the hash",
  "If slh_verify accepts a signature under a generated key then its FORS and hypertree parts are exactly those the key owner computes for that message and randomiser, or one of the hash inputs of this verification is a second preimage of the key owner's input at the same address, or the signature contains a chain value that precedes the one the key owner reveals.",
  "all generated keys, messages, signatures and hash functions, all twelve parameter sets",
  "unforgeability cannot be tested",
  ["pq_logic/fips/fips205.py: slh_verify_internal, ht_verify, xmss_pk_from_sig, wots_pk_from_sig, fors_pk_from_sig"])
p("SLH-DSA contexts, messages and modes are never confused",
  "The string that is signed determines whether the message was pre-hashed, the context, the pre-hash function, and the message or its digest.",
  "all contexts of at most 255 bytes, all messages, all pre-hash functions",
  "a collision between two formats can hide behind any pair of inputs",
  ["pq_logic/fips/fips205.py: slh_sign, slh_verify, hash_slh_sign, hash_ml_dsa_verify"])
p("SLH-DSA hash inputs are the prescribed ones and never ambiguous",
  "For every parameter set the tweakable hashes, the pseudo-random functions and the message hash are the SHA-2 or SHAKE constructions of FIPS 205 section 11 (including MGF1 and HMAC), and the string handed to the hash determines the public seed, every field of the address and the hashed value.",
  "all twelve parameter sets, all seeds, addresses and messages",
  "two addresses that collide after compression would not show in any test vector",
  ["pq_logic/fips/fips205.py: shake_*, sha2_*, ADRS.adrsc"])
p("Which byte strings are private keys",
  "from_private_bytes of the ML-KEM, ML-DSA and SLH-DSA key classes accepts exactly the standard's seed length, expanded-key length and their sum and raises InvalidKeyData for every other length; the key it returns has the algorithm asked for and keys of the standard sizes; the seed, the expanded key, and seed followed by expanded key of a generated key all load to that key, with the seed kept where it was present.",
  "all byte strings, all ML-KEM, ML-DSA and SLH-DSA parameter sets, all hash functions",
  "all byte strings, all parameter sets",
  ["pq_logic/keys/kem_keys.py: MLKEMPrivateKey","pq_logic/keys/sig_keys.py: MLDSAPrivateKey, SLHDSAPrivateKey","pq_logic/keys/pq_key_factory.py: PQKeyFactory.from_private_bytes"])
p("Saved post-quantum keys load again as the same key",
  "Saving a generated key as OneAsymmetricKey with any save type (version 1, or version 0 without public key) and loading the result gives the same key, with the seed where the save type contains it; a key loaded without seed survives saving as RAW; private_bytes in DER form can be loaded again unless an ML-KEM or ML-DSA key starts with one of three bytes.",
  "all generated keys of all parameter sets, all save types",
  "a key whose random bytes look like DER fails only once in many keys",
  ["pq_logic/keys/pq_key_factory.py: PQKeyFactory.save_private_key_one_asym_key, PQKeyFactory.from_one_asym_key, PQKeyFactory._load_ml_private_key","pq_logic/keys/abstract_wrapper_keys.py: PQPrivateKey._export_private_key","pq_logic/combined_factory.py: CombinedKeyFactory.load_private_key_from_one_asym_key"])
p("A seed and an expanded key that do not belong together are refused",
  "If a private key is loaded from a seed together with an expanded key, loading succeeds only if the expanded key is the one generated from the seed.",
  "all seeds and expanded keys of the right lengths",
  "all pairs of seed and expanded key",
  ["pq_logic/keys/kem_keys.py: MLKEMPrivateKey.from_private_bytes","pq_logic/keys/sig_keys.py: MLDSAPrivateKey.from_private_bytes, SLHDSAPrivateKey.from_private_bytes","pq_logic/keys/pq_key_factory.py: PQKeyFactory._load_ml_private_key"])
p("An attached public key is the private key's own",
  "A OneAsymmetricKey that carries a non-empty public key is loaded only if this is the public key of the private key in it; otherwise MismatchingKey is raised.",
  "all OneAsymmetricKey structures for ML-KEM, ML-DSA and SLH-DSA",
  "all structures",
  ["pq_logic/keys/pq_key_factory.py: PQKeyFactory.from_one_asym_key, PQKeyFactory._load_and_validate_public_key"])
p("The ML-DSA public key computed from a private key is the generated one",
  "For every seed, recomputing the public key from the expanded private key gives the public key that key generation returned.",
  "all seeds, all three parameter sets, all hash functions",
  "a rounding slip would affect only some coefficients of some keys",
  ["pq_logic/keys/sig_keys.py: MLDSAPrivateKey._derive_public_key"])
p("Loaded keys work",
  "With a key object loaded from any form of a generated key: what encaps produces decaps recovers (if decryption does not fail, see C26), what sign produces verify accepts, in pure and in pre-hash mode and whether the caller or the library hashes; unsupported hash algorithms do not lead to pre-hash signatures; the signed string determines mode, context, hash algorithm and data.",
  "all generated keys, messages, contexts and hash algorithms",
  "all keys and messages",
  ["pq_logic/keys/kem_keys.py: MLKEMPublicKey.encaps, MLKEMPrivateKey.decaps","pq_logic/keys/sig_keys.py: MLDSAPrivateKey.sign, MLDSAPublicKey.verify, SLHDSAPrivateKey.sign, SLHDSAPublicKey.verify"])
p("messageTime check",
  "check_message_time_field passes iff messageTime is present whenever confirmWaitTime is, and (if an interval is given) messageTime lies within the interval before now, or, with a request, not later than the interval after the request time.",
  "all messages, clocks, intervals and request times",
  "all times and intervals, including the exact boundaries",
  ["resources/checkutils.py: check_message_time_field, check_message_time_for_request"])
p("generalInfo checks",
  "The generalInfo check passes iff implicitConfirm is NULL and only in certificate requests and responses, confirmWaitTime is a DER time in the future and not together with implicitConfirm, and certProfile only occurs in requests that may carry it; the CA accepts one profile name per request.",
  "all messages and all generalInfo lists",
  "all lists of entries, repeated ones included",
  ["resources/checkutils.py: check_generalinfo, check_implicitconfirm, check_confirmwaittime, check_certprofile","resources/checkutils.py: validate_cert_profile_for_ca"])
p("sender and senderKID fit the protection",
  "With signature protection the sender check passes iff the sender names the subject of the first extra certificate and the senderKID check passes iff senderKID is its subject key identifier; with MAC protection iff the sender is a directory name with a commonName and senderKID is that commonName.",
  "all messages, names and certificates",
  "all names and certificates",
  ["resources/checkutils.py: check_sender_cmp_protection, validate_senderkid, verify_sender_field_for_mac, verify_senderkid_for_mac, check_is_protection_present","resources/utils.py: get_openssl_name_notation"])
p("Identifiers in a nested request are fresh",
  "The uniqueness check of a nested message passes iff transactionID, senderNonce (and recipNonce, if asked) are set in the outer and every inner message, pairwise different and 16 bytes long, as far as each of these checks is switched on.",
  "all nested messages with any number of inner messages",
  "all batch sizes",
  ["resources/checkutils.py: validate_nested_message_unique_nonces_and_ids"])
p("Added protection repeats the identifiers",
  "validate_add_protection_tx_id_and_nonces passes iff the nested message holds exactly one message with the same transactionID and nonces, and recipNonce is present exactly for certConf.",
  "all nested messages",
  "all messages",
  ["resources/checkutils.py: validate_add_protection_tx_id_and_nonces"])
p("A nested response answers every inner request",
  "If the nested-response check passes, the response is a batch of the same size bound to the request and every inner request has an inner reply with its transactionID, its nonce and an allowed body; and every such honest response passes.",
  "all pairs of nested messages",
  "all batch sizes and orders",
  ["resources/checkutils.py: validate_ids_and_nonces_for_nested_response"])
p("Body types of responses",
  "validate_cmp_body_types passes iff the response body is the answer to the request body (or an error where errors are allowed), looking through added protection and comparing batches entry by entry.",
  "all pairs of messages, nested to any depth",
  "all nesting depths",
  ["resources/checkutils.py: validate_cmp_body_types"])
p("Identifiers and integrity of a request",
  "The request check of the CA passes iff transactionID and senderNonce are 16 bytes long and recipNonce is absent, or, for a certConf, 16 bytes and matching the previous response; the integrity check passes iff messages that need a signature have one.",
  "all requests and previous responses",
  "all requests",
  ["resources/checkutils.py: validate_request_message_nonces_and_tx_id","resources/checkutils.py: validate_wrong_integrity"])
p("The header check is the conjunction of its parts",
  "validate_pkimessage_header passes iff the version is 2 or 3, the protection is present as required and sender, senderKID, generalInfo, messageTime and the binding to the request all pass; no failing part is overlooked.",
  "all responses, requests and options",
  "all combinations of failing parts",
  ["resources/checkutils.py: validate_pkimessage_header"])
p("Order of a chain in extraCerts",
  "check_single_chain_is_ordered returns True iff all certificates of the chain are in extraCerts and every issuer directly follows its certificate or comes earlier.",
  "all lists of extra certificates and all chains",
  "all orders of all lists",
  ["resources/checkutils.py: check_single_chain_is_ordered, _prepare_indicies, _get_cert_index"])
p("extraCerts validation",
  "validate_extra_certs accepts a certificate response iff extraCerts contains the issuer of the new certificate, this issuer passes the extended key usage check, and a signed message verifies with the chain of its signer in order; other messages iff their protection does; absent extraCerts only where allowed.",
  "all messages and certificate pools",
  "all pools",
  ["resources/checkutils.py: validate_extra_certs, _check_cmp_protection_for_extra_certs, find_right_cert_pos"])
p("Trust decisions",
  "certificates_must_be_trusted accepts a chain iff its last certificate is byte for byte one of the trust anchors, the chain verifies and the first certificate has the requested key usage; certificates_are_trustanchors accepts iff every certificate is an anchor; a CRL chain starts with a certificate of the CRL issuer's name whose key verifies the CRL and continues along issuers.",
  "all chains, trust stores and options",
  "all stores",
  ["resources/certutils.py: certificates_must_be_trusted, certificates_are_trustanchors, load_truststore, cert_in_list, build_crl_chain_from_list, find_crl_signer_cert"])
p("Composite signature keys survive saving and loading",
  "A composite public key exported as SubjectPublicKeyInfo and loaded under its identifier is the same key; a private key saved with its seed and loaded, with or without its public key, is the same key; a loaded private key is of the combination its identifier names, read completely, and a public key stored with it must be its own; a loaded public key is of the combination its identifier names.",
  "all keys, all 18 combinations, all byte strings and all library behaviours",
  "all inputs",
  ["pq_logic/combined_factory.py: CombinedKeyFactory._load_composite_sig_key, _load_composite_sig_from_private_bytes, _load_composite_sig_from_public_bytes, load_private_key_from_one_asym_key", "pq_logic/keys/hybrid_key_factory.py: HybridKeyFactory._save_keys_with_support_seed, save_private_key_one_asym_key"])
p("Traditional key encapsulation",
  "DHKEM, plain ECDH, RSA-OAEP and RSA-KEM: decapsulating what was encapsulated to the public key of a private key returns the encapsulated secret; DHKEM derives the secret of RFC 9180, RSA-KEM accepts exactly the ciphertexts of the length of the modulus with a value below it, and KDF3 returns exactly the requested number of bytes.",
  "all keys, randomness, ciphertexts, secret lengths and library behaviours with symmetric Diffie-Hellman",
  "all keys and random values, all byte strings",
  ["pq_logic/keys/trad_kem_keys.py: DHKEMPublicKey, DHKEMPrivateKey, RSAEncapKey, RSADecapKey", "pq_logic/kem_mechanism.py: DHKEMRFC9180, ECDHKEM, RSAKem, RSAOaepKem", "resources/cryptoutils.py: compute_kdf3"])
p("Hybrid key encapsulation keys survive saving and loading",
  "A structure is loaded as an X-Wing, Chempat or composite key iff its version allows its fields, its identifier is one of the listed ones and its bytes are the described concatenation, read completely; the result is of the algorithm the identifier names; a stored public key must be that of the private key; a key that is saved and loaded is the same key, and public keys exported as SubjectPublicKeyInfo load as themselves.",
  "all identifiers, versions, byte strings, keys, export forms and library behaviours",
  "all byte strings and keys",
  ["pq_logic/combined_factory.py: CombinedKeyFactory.load_private_key_from_one_asym_key, load_public_key_from_spki, _load_composite_kem_from_private_bytes, _load_composite_kem_public_key, _decode_composite_kem", "pq_logic/keys/hybrid_key_factory.py: HybridKeyFactory.from_one_asym_key, save_private_key_one_asym_key, _save_keys_with_support_seed", "pq_logic/keys/xwing.py: XWingPrivateKey.from_private_bytes", "pq_logic/keys/chempat_key.py: ChempatPublicKey.from_public_bytes"])
p("Changing stateful signatures",
  "manipulate_pq_stateful_signature_bytes with manipulate_sig=True changes exactly one byte behind the index field and leaves the index; with manipulate_sig=False it changes only the index field of the (lowest) tree, accepts exactly the numbers that fit, and the index read back from the result is the number given; without a number, the result is out of range for the tree.",
  "all signatures, keys, parameter sets, levels and indices",
  "all byte strings and numbers",
  ["resources/utils.py: manipulate_pq_stateful_signature_bytes, _manipulate_stateful_signature_payload, _manipulate_hss_lms_signature, _get_default_lms_max_sig_size", "resources/keyutils.py: get_pq_stateful_sig_index_from_sig"])
p("Moving and exhausting stateful private keys",
  "modify_pq_stateful_sig_private_key replaces exactly the index of the key: the secret values and the public key stay, the next signature has the requested index, an index that does not fit is refused; without index no signature is left, last_index leaves one; used_index returns a recorded earlier state of the key.",
  "all keys, indices and recorded states",
  "all key states",
  ["resources/keyutils.py: modify_pq_stateful_sig_private_key, _get_index", "pq_logic/keys/stateful_sig_keys.py: XMSSPrivateKey._change_index, XMSSMTPrivateKey._change_index"])
p("Loading stateful signature keys",
  "An XMSS or XMSS^MT public key is accepted iff its number is registered and its length is that of the parameter set, anything else is InvalidKeyData; the public key of a secret key consists of the identifier and the two public values of the secret key, and loads as the same key; a certificate template with a stateful key is accepted iff it has no parameters, the right identifier, an approved hash function or one to eight HSS levels.",
  "all byte strings, parameter sets and secret keys",
  "all byte strings",
  ["pq_logic/keys/stateful_sig_keys.py: XMSSPublicKey.from_public_bytes, XMSSMTPublicKey.from_public_bytes, XMSSPrivateKey.from_private_bytes, XMSSMTPrivateKey.from_private_bytes, _xmss_liboqs_sk_to_pk", "resources/ca_ra_utils.py: _validate_pq_hash_stateful_sig_pub_key, is_nist_approved_xmss, is_nist_approved_xmssmt"])
p("Testing bits by index and by name",
  "is_bit_set with an index, a decimal string or a list of decimal strings is true iff (one of) the bits is set, with exclusive=True iff (one of) the bits is the only one set; with a comma-separated list of names, spaces allowed, it is true iff one of the named bits is set; with one name and exclusive=True iff the named bit is the only one; unknown names and missing values are a ValueError.",
  "all bit strings, indices, name tables, lists of names and spacings",
  "all bit strings and all texts",
  ["resources/asn1utils.py: is_bit_set, _is_bit_set_in_bitstring, _is_either_bit_set_in_bitstring"])
p("Names and bits correspond",
  "get_set_bitstring_names returns the names of the set bits in order and determines the set of named bits; asn1_names_to_bitstring sets exactly the named bits, without trailing zero bits, and refuses unknown names; it agrees with the constructor of the ASN.1 library; turning names to bits and back gives the names once, in the order of the bits.",
  "all name tables, bit strings and lists of names",
  "all bit strings and texts",
  ["resources/asn1utils.py: get_set_bitstring_names, asn1_names_to_bitstring"])
p("Key usage is checked at four levels of strictness",
  "validate_key_usage passes iff the certificate's extension is what the strictness asks for: anything (NONE); all requested usages if there is an extension (LAX); all requested usages (STRICT); exactly the requested usages (ABS_STRICT); otherwise BadKeyUsage. Levels are given as numbers, decimal strings or labels in any case. An extension built by prepare_key_usage_extension passes every level for the same usages; must_not_contain_key_usage refuses a certificate that has one of the given usages.",
  "all certificates' key usage bits, all lists of usages, all levels",
  "2^9 usages times all texts",
  ["resources/certutils.py: validate_key_usage, must_not_contain_key_usage, _validate_key_usage", "resources/certbuildutils.py: prepare_key_usage_extension", "resources/suiteenums.py: KeyUsageStrictness"])
p("CMP extended key usage is checked at four levels of strictness",
  "validate_cmp_extended_key_usage passes iff the extension holds the OIDs of the requested CMP usages as the strictness asks; unknown names are a ValueError; an extension built for the same names passes every level.",
  "all extended key usage extensions, lists of names and levels",
  "all lists of OIDs",
  ["resources/certutils.py: validate_cmp_extended_key_usage", "resources/certbuildutils.py: prepare_extensions"])
p("Status checks of responses",
  "verify_pkistatusinfo passes iff the body carries a status, the status is one of the listed names, failure information is present if it must be, one of the listed failures is set unless failures are tolerated, and the body is of the named type; comparing a named number with names is true iff one of the names has that number; a revocation response passes check_rp_cmp_message_body iff it is accepted without failure, or rejected with one.",
  "all messages, status values, failure bits, lists of names and options",
  "all texts and bit strings",
  ["resources/checkutils.py: check_rp_cmp_message_body", "resources/asn1utils.py: asn1_compare_named_values, asn1_compare_named_integer", "resources/cmputils.py: get_pkistatusinfo, verify_pkistatusinfo"])
p("Key usage of requests fits the key",
  "A requested key usage is granted iff it fits the key: exactly keyEncipherment for KEM keys, only signature usages for signature keys, no encipherment for EC keys, anything for RSA, key agreement with at most one of encipherOnly and decipherOnly for X25519/X448; granted usages are as requested and critical. End entities cannot request certificate or CRL signing; CA certificates get certificate signing; migration and related certificates have the usages of their kind.",
  "all key usage extensions, key kinds, basic constraints and certificate pairs",
  "2^9 usages times all key kinds",
  ["resources/certbuildutils.py: _verify_key_usage, _check_sig_key, _check_ecc_key_usage, _check_x_ecc_key_usage, check_logic_extensions", "resources/ca_ra_utils.py: _ensure_key_usage", "resources/certutils.py: validate_migration_certificate_key_usage", "pq_logic/hybrid_sig/cert_binding_for_multi_auth.py: validate_ku_and_eku_related_cert"])
p("Password protection round trip",
  "A message that protect_pkimessage protects with a MAC under a password (PBMAC1, PasswordBasedMac, HMAC, KMAC, AES-GMAC, under every spelling of the name) passes verify_pkimessage_protection with that password, both the object and the message that was encoded and decoded; with bad_message_check it always fails with BadMessageCheck. With enforce_lwcmp it passes iff the protection is PBMAC1 or PasswordBasedMac with a SHA-2 hash.",
  "all messages, passwords (text, hexadecimal, bytes), salts, iteration counts, key lengths, hashes, options and random bytes of either side",
  "all inputs and all randomness",
  ["resources/protectionutils.py: protect_pkimessage, verify_pkimessage_protection, _prepare_prot_alg_id, _compute_pkimessage_protection, _compute_symmetric_protection, _compute_pbmac1_from_param", "resources/prepare_alg_ids.py: prepare_pbmac1_parameters, prepare_password_based_mac_parameters, prepare_hmac_alg_id, prepare_kmac_alg_id, prepare_aes_gmac_prot_alg_id", "resources/suiteenums.py: ProtectionAlgorithm.get"])
p("Password protection is decided exactly",
  "verify_pkimessage_protection accepts a message with a MAC algorithm iff the protection value is the MAC of header and body that the algorithm, its parameters and the password determine, and with enforce_lwcmp iff moreover the algorithm is one of the profile; any other value is BadMessageCheck. Nothing is accepted without algorithm, protection value, password and body. Two accepted messages with one protection value have the same header and body unless the MAC has a collision. The decision depends on message and password only.",
  "all messages, algorithm identifiers (structured, encoded, malformed), protection values and passwords",
  "all byte strings",
  ["resources/protectionutils.py: verify_pkimessage_protection, _compute_symmetric_protection, _compute_pbmac1_from_param, prepare_protected_part", "resources/cryptoutils.py: compute_pbkdf2_from_parameter, compute_password_based_mac, compute_hmac, compute_kmac_from_alg_id, compute_gmac"])
p("Protection with an agreed secret",
  "A message protected with DHBasedMac verifies at the peer, which has the same shared secret or the other key pair of the key agreement; with bad_message_check it fails with BadMessageCheck. A message is accepted iff its protection is the DH-based MAC of header and body under the shared secret, with a key derived as RFC 4210 prescribes.",
  "all messages, secrets, key pairs on both sides, hashes, MAC algorithms and options",
  "all secrets and messages",
  ["resources/protectionutils.py: compute_dh_based_mac_from_alg_id, dh_based_mac_derive_key, _perform_dh_based_mac_exchange, _verify_dh_based_protection", "resources/prepare_alg_ids.py: prepare_dh_based_mac_params", "resources/cryptoutils.py: perform_ecdh"])
p("Protection with a key encapsulation mechanism",
  "A message protected with KemBasedMac verifies: with the shared secret on both sides, with the secret encapsulated for the sender's key, or with the private key of the certificate it was encapsulated for; with bad_message_check it fails with BadMessageCheck. It is accepted iff the protection is the MAC of header and body under the key derived from shared secret, transaction ID and context by the named function.",
  "all messages, secrets, keys, ciphertexts, key derivation functions, hashes and contexts",
  "all secrets and messages",
  ["resources/protectionutils.py: protect_pkimessage_kem_based_mac, verify_kem_based_mac_protection, compute_kem_based_mac_from_alg_id, compute_kdf_from_alg_id, prepare_kem_ciphertextinfo", "resources/prepare_alg_ids.py: prepare_kem_based_mac_alg_id, prepare_kdf_alg_id"])
p("Signature protection round trip",
  "A message that protect_pkimessage signs verifies with the signer's public key, given as an argument or in the first extra certificate, before and after it travels; with enforce_lwcmp iff the algorithm is one of the profile.",
  "all messages, all signature key kinds, hashes, certificates and chains, random bytes",
  "all messages and keys",
  ["resources/protectionutils.py: protect_pkimessage, sign_data_with_alg_id, _prepare_signature_prot_alg_id, add_cert_to_pkimessage_used_by_protection, _verify_pki_message_sig", "resources/prepare_alg_ids.py: prepare_sig_alg_id, prepare_rsa_pss_alg_id", "resources/oid_mapping.py: get_alg_oid_from_key_hash", "resources/cryptoutils.py: sign_data, verify_signature"])
p("Signature algorithm identifiers are bound to the key",
  "A signature is accepted under an algorithm identifier iff the identifier belongs to the kind of the key, has exactly the parameters of its specification (NULL for RSA PKCS #1 v1.5, matching hash and MGF for RSASSA-PSS, absent otherwise), and the signature verifies with the scheme it names; a signed message likewise, whether the key is given or taken from its certificate. Two messages accepted with one signature have the same header and body unless the signature is valid for two inputs.",
  "all keys, algorithm identifiers with any parameters, signatures, data and messages",
  "all byte strings times all identifiers",
  ["resources/protectionutils.py: verify_signature_with_alg_id, verify_rsassa_pss_from_alg_id, _validate_sig_alg_id, _verify_pki_message_sig", "resources/keyutils.py: check_consistency_sig_alg_id_and_key", "resources/certutils.py: verify_signature_with_cert"])
p("The kind of protection is determined by the algorithm",
  "Every algorithm identifier has at most one kind of protection (KEM-based, DH-based, MAC, signature, post-quantum, stateful, composite), get_protection_type reports it and refuses all others; for a message, the report also needs the caller's permission for DH and KEM and, with enforce_lwcmp, that the profile has the algorithm; a known algorithm that is not allowed is BadAlg.",
  "all identifiers and all combinations of options",
  "all identifiers",
  ["resources/suiteenums.py: ProtectedType.get_protection_type", "resources/protectionutils.py: get_protection_type_from_pkimessage, _enforce_lwcmp_protection_alg"])
p("Derived keys have the prescribed contents and length",
  "The ANSI X9.63 key derivation (KDF2, KDF3) returns exactly the number of bytes asked for, the beginning of the sequence of digests over counter, secret and other information, counted from 1; a shorter key is a prefix of a longer one; beyond 2^32-1 blocks it refuses. The key derivation of DHBasedMac returns the base key followed by the digests of the decimal numbers and the base key, cut to the length asked for.",
  "all secrets, lengths, other information and hashes",
  "all lengths",
  ["resources/cryptoutils.py: compute_ansi_x9_63_kdf", "resources/protectionutils.py: dh_based_mac_derive_key"])
p("MAC protection stays the same through an exchange",
  "mac_protection_algorithms_must_match passes in strict mode iff request and response name the same MAC algorithm (one of the Lightweight CMP profile when it is enforced) and its parameters agree: same iteration count, key length, pseudo-random function, one-way function and MAC, and salts that differ, or with same_salt are equal. Two messages protected with the same settings match iff their salts obey the rule. In the other mode it passes iff all messages have one kind of protection.",
  "all messages, algorithm identifiers with any parameters, options and confirmations",
  "all pairs of parameter structures",
  ["resources/protectionutils.py: mac_protection_algorithms_must_match, _compare_mac_params, _compare_pbmac1_parameters, _compare_pbm_parameters, _compare_pbkdf2_parameters, _compare_not_strict_mac, _compare_alg_id"])
p("Signature protection stays the same through an exchange",
  "signature_protection_must_match passes iff the response has extra certificates, there is a confirmation or a polling response, all messages name the same signature algorithm without parameters, every message is signed with the key of the first certificate of the response, and the certificates of every message that has any build a chain with the same encoding.",
  "all messages, certificates and chain builders",
  "all message combinations",
  ["resources/protectionutils.py: signature_protection_must_match, check_signature_alg_is_consistent, _check_is_same_chain", "resources/certutils.py: verify_signature_with_cert, build_chain_from_list"])
p("Salts are read and protections modified as described",
  "get_cmp_protection_salt returns the salt a message was protected with, before and after it travels. modify_pkimessage_protection changes the first byte of the protection and nothing else, or adds 32 random bytes when there is none; a MAC message that was accepted is then refused with BadMessageCheck.",
  "all messages, salts, random bytes and passwords",
  "all messages",
  ["resources/protectionutils.py: get_cmp_protection_salt, modify_pkimessage_protection"])
p("Hybrid verification accepts exactly what is signed with both keys",
  "verify_hybrid_pkimessage_protection accepts a message iff it names an algorithm and its protection verifies, over header and body, with the key of the verifier (a given composite key, the composite key of the first certificate or the traditional key of it joined with its alternative ML-DSA key for composite algorithms; the key of the first certificate otherwise), and, unless the algorithm is composite, either there is no alternative signature and none is asked for, or the last alternative signature verifies under the last alternative algorithm over the message without alternative signatures. Verifying removes nothing from the message but its alternative signatures.",
  "all messages, certificates, keys, generalInfo contents, options and libraries",
  "all messages and generalInfo contents",
  ["pq_logic/pq_verify_logic.py: verify_hybrid_pkimessage_protection, _get_catalyst_info_vals, verify_composite_signature_with_hybrid_cert, _verify_signature_with_other_cert", "resources/protectionutils.py: verify_composite_signature_with_keys"])
p("Hybrid protection verifies with the keys it was made with",
  "A message protected by protect_hybrid_pkimessage with a signature or a composite signature is accepted by a verifier with the same key, before and after it travels; one with an alternative signature is accepted iff that signature verifies over the message without it, so it is accepted unless bad_message_check was asked for.",
  "all messages, keys, options, random bytes and libraries whose decoders undo their encoders and whose signatures verify",
  "all messages and keys",
  ["resources/protectionutils.py: protect_hybrid_pkimessage, _compute_and_prepare_pkimessage_sig_protection, _patch_extra_certs, _prepare_catalyst_info_vals", "resources/utils.py: manipulate_bytes_based_on_key", "pq_logic/pq_verify_logic.py: verify_hybrid_pkimessage_protection"])
p("Original messages of a request are verified",
  "validate_orig_pkimessage passes iff generalInfo has no original messages and none are asked for, or the first entry decodes completely to messages whose protection all verifies with the given password (or their own certificates); otherwise the first message that fails decides the error, missing messages are BadRequest.",
  "all messages, generalInfo contents, decoders and passwords",
  "all lists of messages",
  ["resources/protectionutils.py: validate_orig_pkimessage, verify_pkimessage_protection", "resources/cmputils.py: find_oid_in_general_info, get_value_from_seq_of_info_value_field"])
p("Certificates are issued only for keys whose possession is shown",
  "When an ir, cr or kur is answered with a certificate for a request, then the CA generates the key, or an RA vouches for the request, or the request carries a valid signature made with the requested key over the certReq, or a MAC under the agreed key, or the private key itself, or the certificate is sent encrypted for the requested key; and the certificate is for the key of the request.",
  "all messages with any number of requests, keys, templates, regInfo, options and libraries",
  "all requests and combinations of proof, key type and template",
  ["resources/ca_ra_utils.py: build_ip_cmp_message, _process_cert_requests, _process_one_cert_request, respond_to_cert_req_msg, verify_popo_for_cert_request", "mock_ca/cert_req_handler.py: process_cert_request"])
p("The proof of possession of a request is verified exactly",
  "verify_popo_for_cert_request accepts the request at an index iff it asks for a generated key and has no proof, or has raVerified from an RA, or a signature over its own certReq that verifies with the requested key, or names key encipherment with a KEM key or key agreement with an EC or XDH key.",
  "all messages, indices, keys, proofs and options",
  "all proofs and positions",
  ["resources/ca_ra_utils.py: verify_popo_for_cert_request, _verify_pop_signature, verify_sig_pop_for_pki_request, check_if_request_is_for_kga, get_public_key_from_cert_req_msg"])
p("An RA can replace the template but not the key of a request",
  "A request inside regInfo is accepted iff it is the only one of its type, decodes completely, has the same identifier and the same public key; it is then the template the certificate is issued for. Whatever regInfo contains, the certificate has the key of the original request.",
  "all requests, regInfo contents and decoders",
  "all regInfo contents",
  ["resources/cmputils.py: validate_reg_info_field, validate_cert_req_inside_reg_info, _validate_cert_request_reg_info, _check_unique_controls", "resources/ca_ra_utils.py: _process_one_cert_request, respond_to_cert_req_msg"])
p("A message with several requests is answered completely or not at all",
  "The identifiers of the requests must be 0..n-1 in some order; the answer has one certificate for each request, in order and with its identifier, each the one the request alone would get; the first request that fails decides the error. In the lightweight profile there is one request with identifier 0.",
  "all messages with any number of requests",
  "any number of requests",
  ["resources/ca_ra_utils.py: validate_cert_req_id_nums, _process_cert_requests, enforce_lwcmp_for_ca, validate_cert_req_id, build_ip_cmp_message"])
p("raVerified is accepted from RAs only",
  "When RA certificates are configured, raVerified is accepted iff the message is from one of them: its first certificate is a known RA certificate with the extended key usage and key usage required and, if asked, a valid chain.",
  "all messages, certificates and options",
  "all messages and certificates",
  ["resources/ca_ra_utils.py: _verify_ra_verified, verify_popo_for_cert_request, respond_to_cert_req_msg", "resources/certutils.py: cert_in_list", "mock_ca/cert_req_handler.py: process_cert_request"])
p("A key update replaces the named certificate with a new key",
  "build_kup_from_kur answers iff the message is a kur with one request with identifier 0 that is signed with the new key or asks for a generated one, the new key differs from the one of the certificate that is updated unless the same key is allowed, and every oldCertId names the serial number of the certificate and the name of its issuer (and there is one if required); the certificate has the template of the request.",
  "all messages, certificates, controls and options",
  "all controls and certificates",
  ["resources/ca_ra_utils.py: build_kup_from_kur, validate_kur_controls, _validate_old_cert_id, _validate_popo_kur, get_popo_from_pkimessage"])
p("Cross-certificates are CA certificates for a signed, complete request",
  "build_ccp_from_ccr answers iff the message is a ccr with one request with identifier 0, signed with its key, whose template has all fields required and whose key usage, if any, allows signing certificates; the certificate has that template with key usage and basic constraints added.",
  "all messages, templates and keys",
  "all templates",
  ["resources/ca_ra_utils.py: build_ccp_from_ccr, _process_crr_single, _validate_ccr_cert_template, _ensure_key_usage, _ensure_basic_constraints, verify_popo_for_cert_request, verify_sig_pop_for_pki_request"])
p("PKCS #10 requests get a certificate iff they are signed with their key",
  "build_cp_from_p10cr answers iff the message is a p10cr whose request has a non-empty subject or subject alternative name, a usable key and a signature over it that verifies with this key; the certificate is for its subject, key and extensions, the identifier in the answer is -1.",
  "all requests, keys and libraries",
  "all requests",
  ["resources/ca_ra_utils.py: build_cp_from_p10cr", "resources/certutils.py: verify_csr_signature"])
p("Template, key and algorithm rules, and who can read the certificate",
  "A template is accepted iff it names a subject or a subject alternative name and its key is allowed; the algorithm of a signature must be one for the kind of key. A certificate sent encrypted is encrypted for the key it is issued for. A request signed with any supported algorithm under a fitting key is served.",
  "all templates, keys, algorithm identifiers and proofs",
  "all combinations of key type, algorithm and proof",
  ["resources/ca_ra_utils.py: validate_cert_template_public_key, respond_to_key_agreement_request, respond_to_key_encipherment_request, process_encrypted_key, validate_enc_key_with_id, prepare_encr_cert_from_request, respond_to_cert_req_msg", "resources/keyutils.py: check_consistency_sig_alg_id_and_key, load_public_key_from_cert_template", "resources/certbuildutils.py: build_cert_from_cert_template"])
p("Controls of certificate requests are checked exactly",
  "validate_cert_request_controls accepts the controls of a request iff the archive options, if they give parameters of the key generation, generate the requested key; the publication information is consistent; the registration token and the authenticator, if given, are the only controls of their type, decode completely and are the expected ones; the token was not used before; and all controls that must be present are.",
  "all requests, lists of controls, expected values, options and decoders",
  "all lists of controls and all combinations of required and expected values",
  ["resources/ca_ra_utils.py: validate_cert_request_controls", "resources/cmputils.py: validate_archive_options, _validate_key_gen_params, validate_pki_publication_information, validate_reg_token_control, validate_authenticator_control, _check_unique_controls"])
p("A one-time registration token is honoured at most once",
  "In every history of requests to the mock CA at most one request with a registration token is answered with certificates, it has the right token, and none is after the token was used; the token is used up only by a request that gets its certificate; every certificate of the history is one its sender is entitled to.",
  "all histories of ir, cr and KEM-protected kur messages with any number of requests, with failures anywhere",
  "all histories and orders of failing and successful requests",
  ["mock_ca/cert_req_handler.py: process_cert_request, process_ir, process_cr", "resources/data_objects.py: ExtraIssuingData", "resources/ca_ra_utils.py: validate_cert_request_controls, _process_one_cert_request, _process_cert_requests, build_ip_cmp_message"])
p("UTF8Pairs are read in exactly one way and round-trip",
  "The parser of UTF8Pairs accepts exactly the texts Name?Value%Name?Value%... with escaped question marks and percent signs and names that do not start with a digit, and reads each in one way. All such pairs, of any Unicode text, can be written, prepared and validated back to the same pairs; validate_reg_info_utf8_pairs accepts exactly a single entry that decodes completely to such a text.",
  "all texts, pairs, lists of registration information and decoders",
  "all texts of any length",
  ["resources/cmputils.py: _parse_utf8_pairs, prepare_utf8_pairs_req_info, validate_reg_info_utf8_pairs"])
p("The delta certificate is had back from a paired (chameleon) certificate",
  "build_delta_cert_from_paired_cert gives back the delta certificate from the certificate build_chameleon_base_certificate made of it, exactly when version, unique identifiers and extension types agree with the base certificate and the algorithm is the same or has no parameters. From any certificate it takes what the first descriptor says and keeps the rest; it succeeds iff the descriptor can be read and overrides only extensions that are there. The delta key is that of the descriptor, and validate_dcd_extension accepts exactly the descriptors that override extensions with other content.",
  "all delta certificates, base certificates, keys, options and certificates with any extensions",
  "all combinations of fields that differ and all lists of extensions",
  ["pq_logic/hybrid_sig/chameleon_logic.py: build_chameleon_base_certificate, prepare_dcd_extension_from_delta, build_delta_cert_from_paired_cert, get_chameleon_delta_public_key, validate_dcd_extension"])
p("A paired request proves possession of both keys",
  "verify_paired_csr_signature accepts a request iff the request signature verifies under the base key and the delta signature verifies under the key of the delta request over the request without it. A request from build_paired_csr is accepted in whatever order its attributes arrive, the negative one is refused, and the delta key the CA looks up is the proven one when there is one delta request.",
  "all requests, keys, extensions, names and attribute orders",
  "all attribute lists, including repeated attributes",
  ["pq_logic/hybrid_sig/chameleon_logic.py: build_paired_csr, verify_paired_csr_signature, extract_chameleon_attributes, load_chameleon_csr_delta_key_and_sender", "resources/certutils.py: verify_csr_signature"])
p("A paired certificate is issued only for two proven, different keys, and its delta can be had back",
  "build_chameleon_cert_from_paired_csr issues two certificates the CA's key verifies, for the base key and the delta key of the request, both proven, different and of an allowed size, with the names asked for. If both parts ask for extensions, each certificate carries its key identifier, the CA's own extensions and those asked for in both parts in its own version, and with the default hash the delta certificate is had back from the paired one.",
  "all requests, options, extensions and CA keys",
  "all lists of requested extensions and all options",
  ["pq_logic/hybrid_sig/chameleon_logic.py: build_chameleon_cert_from_paired_csr, build_delta_cert, process_extensions_for_chameleon, _process_remove_extensions, _parse_extension, _validate_keys", "resources/certbuildutils.py: build_cert_from_csr, sign_cert, validate_subject_key_identifier_extension"])
p("EnvelopedData is opened exactly by whom it is for",
  "validate_enveloped_data, validate_pwri_enveloped_data, validate_kemri_enveloped_data, validate_kemri_env_data_for_ca and validate_kari_env_data return the content iff the number of recipients is the expected one, the recipient has the version, algorithms and parameters RFC 9483 asks for and names the given certificate, its encrypted key opens with the given key or password, and the content has the expected type and an algorithm of the size of that key. A password recipient must not use the salt of the protection, and with a password the protection is verified under the same password.",
  "all EnvelopedData structures with any recipients, keys, certificates, passwords and messages",
  "all combinations of present and absent fields, recipient types and algorithms",
  ["resources/ca_kga_logic.py: validate_enveloped_data, validate_pwri_enveloped_data, validate_kemri_enveloped_data, validate_kemri_env_data_for_ca, validate_kari_env_data, extract_content_encryption_key, validate_encrypted_content_info, validate_password_recipient_info, validate_key_agree_recipient_info, validate_key_trans_recipient_info, validate_kem_recip_info_structure, process_kari, process_mqv, process_kem_recip_info"])
p("EnvelopedData that is built is opened by its recipient",
  "What build_env_data_for_exchange builds for an RSA, elliptic curve or KEM key is opened by the holder of that key and gives back the data; what prepare_enveloped_data_with_pwri builds is opened with the password, if the salts differ and the protection is valid. prepare_password_recipient_info, prepare_ktri, prepare_kari and prepare_kem_recip_info build a recipient that is opened exactly for the options the recipient accepts.",
  "all keys, data, passwords, certificates and options",
  "all options of the builders and all keys",
  ["resources/envdatautils.py: build_env_data_for_exchange, prepare_enveloped_data, prepare_enveloped_data_with_pwri, prepare_encrypted_content_info, prepare_password_recipient_info, prepare_ktri, prepare_kari, prepare_kem_recip_info, prepare_recipient_identifier, prepare_originator_identifier_or_key"])
p("A signature algorithm is accepted exactly for the keys it is for",
  "check_protection_alg_conform_to_spki answers for every two algorithm identifiers and says yes exactly if the signature algorithm is one of the key: ECDSA for EC keys, EdDSA for Edwards keys, RSA signatures for RSA keys, for RSASSA-PSS keys the same parameters, for post-quantum keys the pure or pre-hash variant of the same parameter set, for composite keys the same pair of keys. get_digest_hash_alg_from_alg_id names the hash function of every signature algorithm.",
  "all pairs of algorithm identifiers with any parameters",
  "every pair of algorithms, including those that are in none of the tables",
  ["resources/checkutils.py: check_protection_alg_conform_to_spki, _check_pq_sig_conform_to_spki, _validate_composite_sig_conform_to_spki", "resources/oid_mapping.py: get_digest_hash_alg_from_alg_id, compute_hash", "resources/ca_kga_logic.py: _is_signature_alg_id"])
p("A signed key package yields its key exactly if it is signed by a trusted key generation authority",
  "validate_signed_data_structure returns the private key at the index iff the SignedData has version 3, the expected numbers of keys, digests and signers, a key package as its content, a digest that matches the content, a signature that verifies with the first certificate of the chain under an algorithm of its key, and a chain that ends at a trust anchor, is verified, and begins with a certificate for key generation. What prepare_signed_data builds for one key with a certified signer is accepted and yields that key; what it builds without a subject key identifier, with two different hashes or with a spoiled signature is not.",
  "all SignedData structures with any certificates, signers, attributes and trust anchors; all signers, keys and hashes",
  "all combinations of fields, orders of certificates and libraries",
  ["resources/ca_kga_logic.py: validate_signed_data_structure, check_signer_infos, validate_signed_attributes, validate_signature_and_digest_alg, validate_asymmetric_key_package, get_certificates_from_signed_data, _validate_kga_certificate", "resources/envdatautils.py: prepare_signed_data, prepare_signer_infos, prepare_signed_attributes, prepare_asymmetric_key_package"])
p("A key generated by the CA is the key of the certificate that came with it",
  "validate_not_local_key_gen returns a private key iff the message has version 3, the EnvelopedData of the response at the index is opened with what the receiver has, its content is a signed key package that is accepted, the kind of recipient goes with the protection of the message, and the public key is that of the certificate in the response. With a password, the protection of the message was verified with the same password. A response with the EnvelopedData built for a password is accepted unless its salt is that of the protection.",
  "all messages, recipients, keys, passwords, indices and trust anchors",
  "all combinations of recipients, protections and responses",
  ["resources/ca_kga_logic.py: validate_not_local_key_gen, _check_correct_non_local_key_gen_use", "resources/cmputils.py: get_cert_from_pkimessage"])
p("A catalyst certificate is accepted exactly if both its signatures are valid",
  "validate_catalyst_extensions returns the alternative key, algorithm and signature iff all three extensions are there and are decoded (the last of each counts) and the algorithm is the one demanded, returns None iff none of them is there, and raises ValueError iff only some are. verify_catalyst_signature accepts iff, with those values, the signature of the certificate verifies with the key of the issuer (or the key given, or its own) and the alternative signature verifies over everything else in the certificate but the signature algorithm. sign_cert_catalyst adds the three extensions; what it signs is accepted, what it signs badly is not.",
  "all certificates with any extensions in any order and number, all keys, hashes and libraries",
  "all lists of extensions, with repeated and undecodable ones, and all keys",
  ["pq_logic/hybrid_sig/catalyst_logic.py: validate_catalyst_extensions, verify_catalyst_signature, sign_cert_catalyst, load_catalyst_public_key, convert_tbs_to_pre_tbs, extract_alt_signature_data"])
p("A revocation list with an alternative signature is accepted exactly if both signatures are valid",
  "verify_crl_signature accepts iff the list is signed by the CA and either has no extensions (and an alternative signature is not demanded) or has an alternative signature, algorithm and key (given, or in the list) with which it verifies. An invalid alternative signature raises InvalidAltSignature. What sign_crl_catalyst makes is accepted, with or without the alternative key in the list.",
  "all lists with any extensions, keys, hashes and libraries",
  "all lists of extensions, and the second verification of the same object",
  ["pq_logic/pq_verify_logic.py: verify_crl_signature", "pq_logic/hybrid_sig/catalyst_logic.py: sign_crl_catalyst"])
p("A Sun hybrid certificate is converted between its four forms without loss",
  "convert_sun_hybrid_cert_to_target_form replaces exactly the first extension of each type whose form differs, with the value at its location or the hash of its value, and changes nothing else; get_sun_hybrid_form then tells the form asked for. If the key and the signature are at the locations, every form can be had from every other and converting back gives the same certificate. contains_sun_hybrid_cert_form_1_or_3 and validate_cert_contains_sun_hybrid_extensions accept exactly what they say.",
  "all certificates with any extensions in any order and number, all keys, signatures, hash names, locations and contents of these",
  "all lists of extensions and all contents of the locations, over sequences of conversions",
  ["pq_logic/hybrid_sig/sun_lamps_hybrid_scheme_00.py: prepare_sun_hybrid_alt_sub_pub_key_ext, prepare_sun_hybrid_alt_signature_ext, convert_sun_hybrid_cert_to_target_form, get_sun_hybrid_form, contains_sun_hybrid_cert_form_1_or_3, validate_cert_contains_sun_hybrid_extensions"])
p("A Sun hybrid certificate is accepted exactly if it is signed twice and its key is the one referred to",
  "verify_sun_hybrid_cert accepts iff the certificate, in Form4, is signed by the issuer, its key extension refers to a key with the hash and the algorithm in it, and the alternative key of the issuer signed everything but the signature extensions. sun_cert_template_to_cert and sun_csr_to_cert issue a pair of certificates in Form4 and Form1 that are converted into each other; both are accepted if the algorithm written is the one used, and refused if the alternative signature was spoilt.",
  "all certificates, requests, keys, hashes, locations and libraries",
  "all extensions and attributes, and the contents of the locations",
  ["pq_logic/pq_verify_logic.py: verify_sun_hybrid_cert", "pq_logic/hybrid_sig/sun_lamps_hybrid_scheme_00.py: validate_alt_pub_key_extn, validate_alt_sig_extn, sun_cert_template_to_cert, sun_csr_to_cert"])
p("The alternative key of a certificate is taken from the first source it has",
  "may_extract_alt_key_from_cert returns the key of the Sun extension, else of the related certificate if certificates are given, else of the catalyst extension, else of the certificate that is discovered, else of the delta certificate, else the post-quantum part of a composite key, and None iff there is no such source.",
  "all certificates with any extensions, all lists of other certificates and libraries",
  "all combinations of extensions and failures of the sources",
  ["pq_logic/pq_verify_logic.py: may_extract_alt_key_from_cert", "pq_logic/hybrid_sig/sun_lamps_hybrid_scheme_00.py: get_sun_hybrid_alt_pub_key"])
p("A related certificate is the one whose digest the extension holds",
  "validate_related_cert_extension accepts iff the relatedCertificate extension of the first certificate holds the digest, by the hash given or that of its signature algorithm, of the whole second certificate and the usages are compatible; with a collision free hash it accepts one certificate only. What prepare_related_cert_extension makes is accepted. get_related_cert_from_list returns the first certificate of the list with the digest, and fails iff there is none.",
  "all certificates with any extensions and usages, all lists of certificates, hash names and libraries",
  "all contents of the extension and all orders of the list",
  ["pq_logic/hybrid_sig/cert_binding_for_multi_auth.py: validate_related_cert_extension, prepare_related_cert_extension, get_related_cert_from_list"])
p("A request for a related certificate proves possession of its key, now",
  "validate_related_cert_pop returns the certificates at the location of the request iff the request time is not in the future and not older than allowed, the first certificate has the issuer and serial number of the request, and its key verifies the signature over the time, the issuer and the serial number. What prepare_requester_certificate makes is accepted while it is fresh; with a wrong signature, serial number or issuer it is not.",
  "all certificate requests, times, locations and what is at them, keys and hashes",
  "all times and all contents of the locations, and every way of changing the request",
  ["pq_logic/hybrid_sig/cert_binding_for_multi_auth.py: prepare_requester_certificate, add_csr_related_cert_request_attribute, extract_related_cert_request_attribute, validate_related_cert_pop", "resources/utils.py: load_certificate_from_uri"])
p("A certificate request is bound to a related end entity certificate with a trusted chain",
  "validate_multi_auth_binding_csr returns the related certificate iff neither the request nor that certificate is for a certification authority, possession is proved as above, the chain ends in a trust anchor, and OpenSSL accepts the chain if it is asked. server_side_validate_cert_binding_for_multi_auth accepts a certificate to be issued whose usages the related one has while both are valid.",
  "all requests, chains, directories of trust anchors and settings",
  "all combinations of loaded, built and given chains with the trust anchors",
  ["pq_logic/hybrid_sig/cert_binding_for_multi_auth.py: validate_multi_auth_binding_csr, server_side_validate_cert_binding_for_multi_auth", "resources/certutils.py: build_cert_chain_from_dir, certificates_are_trustanchors"])
p("Certificate discovery finds the certificate that the descriptor names",
  "extract_related_cert_des_from_sis_extension returns the descriptor of the first discovery access description, or of the one asked for; what prepare_subject_info_access_syntax_extension writes is read again; validate_related_certificate_descriptor_alg_ids accepts iff the algorithms that the descriptor has are those of the certificate; get_cert_discovery_cert returns the certificate at the location; validate_cert_discovery_cert accepts a certificate with these algorithms and a chain.",
  "all certificates, extensions, access descriptions, locations and what is at them",
  "all lists of access descriptions and contents of the locations",
  ["pq_logic/hybrid_sig/certdiscovery.py: prepare_subject_info_access_syntax_extension, extract_related_cert_des_from_sis_extension, is_cert_discovery_cert, get_cert_discovery_cert, validate_related_certificate_descriptor_alg_ids, validate_cert_discovery_cert"])
p("Names are compared as the mode says",
  "compare_pyasn1_names has four modes and raises ValueError for any other text. without_tag holds iff the RDNs are the same in the same order, each as a set; strict iff the tags are the same too; contains iff every attribute of the first name is one of the second; contains_seq iff it is at the same position. Each mode accepts what the one before accepts. find_rel_dis_name_in_name finds an RDN iff the name has it; is_null_dn holds iff there are none.",
  "all pairs of names with any RDNs, attributes and tags, and all texts for the mode",
  "all names; the modes are related for all of them",
  ["resources/compareutils.py: compare_pyasn1_names, find_rel_dis_name_in_name, is_null_dn, check_if_alg_id_parameters_is_absent", "resources/suiteenums.py: NameCompareTypes"])
p("A template equals a certificate iff the compared fields agree",
  "compare_cert_template_and_cert returns True iff each field that is to be compared and that the template has agrees with the certificate, and False iff one does not, if the names and keys can be read. What is to be included has precedence over what is to be excluded; comparing fewer fields, or the subject not strictly, accepts at least as much.",
  "all templates, certificates, texts of included and excluded fields and both ways of comparing the subject",
  "every combination of absent and present fields and of included and excluded ones",
  ["resources/compareutils.py: compare_cert_template_and_cert, _compare_validity_template_and_cert, _compare_public_key_template_and_cert, _compare_extensions_subject_template_and_cert, _compare_uids_template_and_cert, _compare_issuer_and_subject_template_and_cert", "resources/utils.py: filter_options"])
p("A template selects the first certificate of a list that it fits",
  "What is selected for revocation is the first of the known certificates that the whole template fits, and BadCertId is raised iff none fits. cert_template_exists returns True iff a certificate with the subject and the key, or one that the template fits, has been issued. check_for_granted_with_mods accepts a response iff the certificate is what was asked for or the status is grantedWithMods.",
  "all templates and all lists of certificates",
  "all lists and the position of the match in them",
  ["resources/ca_ra_utils.py: _contains_cert_template, cert_template_exists", "resources/checkutils.py: check_for_granted_with_mods"])
p("A certificate is compared with a request or a key in all they have",
  "compare_csr_and_cert returns True iff the subject and the key are those of the request and the extensions of the certificate are exactly those that the request asks for, if it has attributes. validate_certificate_public_key accepts iff the key of the certificate equals the one given and is of its class, and the algorithm identifiers are the same where one is given.",
  "all requests with any attributes, all certificates and keys",
  "all combinations of attributes, extensions and keys",
  ["resources/compareutils.py: compare_csr_and_cert, validate_certificate_public_key, _verify_spki_alg_id"])
p("A revocation request revokes the certificate it identifies",
  "validate_rev_details accepts an entry iff it names the issuer and the serial number, names no version but v2, fits a certificate that was issued, and has one reason; with the list of revoked certificates, iff the certificate is in it exactly when it is to be revived. The certificate returned was issued and has the issuer and the serial number of the entry; it is the only one if serial numbers are not reused. By the lightweight profile the response has the status of the one entry.",
  "all entries, lists of issued and revoked certificates and reasons",
  "all histories of revoking and reviving, all lists",
  ["resources/ca_ra_utils.py: validate_rev_details, validate_rr_crl_entry_details_reason, _check_rev_details_mandatory_fields, _check_cert_for_revoked, _check_cert_for_revive, build_rp_from_rr", "resources/certutils.py: cert_in_list"])
p("A migration chain leads from issuer to issuer",
  "What build_migration_cert_chain returns starts with the certificate; each certificate is signed by the next; the issuers come from the list, in its order; only the last may be its own issuer; nothing after it in the list signed it unless it is. A chain that is in the list in its order is found, if nothing else in the list signed one of its certificates.",
  "all certificates, all lists in any order and with any unrelated certificates, all outcomes of verification",
  "all lists and orders",
  ["pq_logic/pq_verify_logic.py: build_migration_cert_chain, _check_names"])
p("The issuer and the chain of a Sun hybrid certificate",
  "find_sun_hybrid_issuer_cert returns the first certificate of the list with the name of the issuer whose key verifies the traditional signature of the certificate in form 4, and all before it have another name or fail to verify it. What build_sun_hybrid_cert_chain returns is the certificate in form 4 followed by forms 4 of certificates of the list, each signed by the next, and has at least two certificates.",
  "all certificates, lists and outcomes of conversion and verification",
  "all lists and orders",
  ["pq_logic/pq_verify_logic.py: find_sun_hybrid_issuer_cert, build_sun_hybrid_cert_chain"])
p("The kind of a hybrid certificate, and hybrid signatures with two certificates",
  "is_hybrid_cert returns the first kind, in a fixed order, whose mark the certificate has, and None iff it has none. verify_cert_hybrid_signature accepts iff the composite of the key of the issuer and that of the other certificate verifies the signature, and the certificate has a key of a composite algorithm.",
  "all combinations of marks; all keys and certificates",
  "all combinations of extensions in any order",
  ["pq_logic/hybrid_issuing.py: is_hybrid_cert", "pq_logic/pq_verify_logic.py: verify_cert_hybrid_signature"])
p("Which entry of a general response is checked",
  "The validators of general responses accept only a genp, require that the expected size is a number, and look at the first entry whose type is the one asked for. The expected size does not change the outcome.",
  "all messages, entries, types and sizes",
  "all lists of entries",
  ["resources/general_msg_utils.py: validate_general_response, validate_genm_message_size"])
p("CA certificates in a general response",
  "validate_get_ca_certs returns a chain iff the response is a genp with the expected number of entries, the CA certificates asked for can be decoded, the chain of the end entity certificate (or the longest one) is built from them, and OpenSSL accepts the chain.",
  "all messages, certificates and outcomes of chain building and verification",
  "all answers and all encodings",
  ["resources/general_msg_utils.py: validate_get_ca_certs"])
p("Root CA certificate update",
  "validate_get_root_ca_cert_update accepts iff the value is absent or is exactly a RootCaKeyUpdate whose new certificate is signed by itself, whose newWithOld is signed by the old root and whose oldWithNew, if present, is signed by the new root and has the key of the old one, and whose new certificate passes the linter.",
  "all messages, updates, old certificates and outcomes of verification",
  "all combinations of certificates",
  ["resources/general_msg_utils.py: validate_get_root_ca_cert_update, process_root_ca_update, validate_root_ca_key_update_value_structure"])
p("Certificate request template",
  "validate_get_certificate_request_template accepts iff the value is exactly a template with one key specification that is an RSA key of at least 2048 bits or an algorithm the suite accepts, and without any field that has to be absent.",
  "all messages, templates and key specifications",
  "all combinations of fields and controls",
  ["resources/general_msg_utils.py: validate_get_certificate_request_template, check_controls_for_cert_temp, _check_cert_template_for_cert_temp_req, _validate_id_reg_ctrl_alg_id"])
p("CRL answers",
  "validate_crl_update_retrieval accepts iff the value is absent and may be, or is exactly a list of the expected number of valid CRLs. validate_current_crl accepts iff the value is exactly a CRL that passes the linter.",
  "all messages, lists of CRLs and outcomes of their checks",
  "all lists",
  ["resources/general_msg_utils.py: validate_crl_update_retrieval, validate_current_crl, _validate_crls"])
p("Answers with key types, algorithms, languages and encryption certificates",
  "The validators of the signing and encryption key types, the preferred symmetric algorithm, the language tags, the revocation passphrase and the protocol encryption certificate accept exactly the well-formed answers, and return the names of the algorithms in order and the certificate.",
  "all messages, algorithms, certificates and outcomes of verification",
  "all lists of algorithms",
  ["resources/general_msg_utils.py: validate_signing_key_types, validate_encr_and_key_agreement_types, validate_preferred_sym_alg, validate_supported_language_tags, validate_revocation_passphrase_response, validate_ca_protocol_encr_cert"])
p("KEM ciphertext exchange in general messages",
  "build_genp_kem_ct_info_from_genm answers iff the request is a genm of the expected size with the type and a certificate with a KEM key; the answer holds the ciphertext encapsulated for it. validate_genp_kem_ct_info returns the secret decapsulated from the answer. Together both sides hold the same secret.",
  "all messages, KEM algorithms, key pairs and ciphertexts",
  "all key pairs and messages",
  ["resources/general_msg_utils.py: build_genp_kem_ct_info_from_genm, validate_genp_kem_ct_info"])
p("What the Mock CA answers to general messages",
  "The Mock CA answers a general message iff it has at least one entry (exactly one with Lightweight CMP), each of a type it supports, without a value where none is allowed and with a well-formed one where one is needed. Each entry is answered, in order, with the type and value that belong to it. Every other message is refused.",
  "all configurations, states, messages and lists of entries",
  "all lists of entries",
  ["mock_ca/general_msg_handler.py: GeneralMessageHandler.process_general_msg, _process_general_message_entry, _check_general_message"])
p("The state of the general message handler",
  "A message adds to the passphrases those it carries, in order; touches no other transaction's KEM secret; never takes back that the encryption certificates are to be sent, and asks for it when the protocol encryption certificate is asked for. With Lightweight CMP a refused message changes nothing. Removing a secret removes it for this transaction only; the encryption certificates are appended once.",
  "all configurations, states and messages, any number of entries",
  "all histories of entries, failing at any one",
  ["mock_ca/general_msg_handler.py: GeneralMessageHandler.process_general_msg, patch_genp_message_for_extra_certs, remove_shared_secert"])
p("The Mock CA's answers pass the checks of the client",
  "The answers of the Mock CA to a question for the template, languages, symmetric algorithm, key types, passphrase, current CRL, CA certificates and root update are accepted by the validator for that answer, and the KEM secret it keeps is the one the client derives.",
  "all configurations, states, libraries with faithful codecs, and messages with one entry",
  "all configurations and keys",
  ["mock_ca/general_msg_handler.py: GeneralMessageHandler.process_general_msg", "resources/general_msg_utils.py: validate_get_certificate_request_template, validate_get_ca_certs, validate_genp_kem_ct_info"])
p("CRL update retrieval by the Mock CA",
  "The Mock CA answers a list of CRL statuses with its current CRL, and nothing else, iff an entry names the CA and has no time or one more than 25 hours ago; otherwise the answer has no value. An empty list is refused.",
  "all lists of CRL statuses, times and revocation databases",
  "all lists and times",
  ["mock_ca/general_msg_handler.py: GeneralMessageHandler.process_crl_update_retrieval, _process_crl_status"])
p("The answer to a challenge is its number",
  "For every challenge that build_popdecc_from_request makes for a key, process_pkimessage_with_popdecc with the private key answers with the number of the challenge, the transaction of the message and the exchanged nonces. The Mock CA has this number open for this transaction.",
  "all keys, numbers, names, witnesses, versions 2 and 3, and all correct encryption libraries",
  "all keys and numbers, both sides together",
  ["resources/ca_ra_utils.py: build_popdecc_from_request, prepare_challenge, prepare_challenge_enc_rand", "resources/extra_issuing_logic.py: process_pkimessage_with_popdecc", "mock_ca/challenge_handler.py: ChallengeHandler._process_challenge"])
p("Which challenges an end entity answers",
  "process_pkimessage_with_popdecc answers iff the message is a popdecc of the expected size, its version fits the kind of all challenges, the chosen challenge is of the expected kind, an encrypted one is addressed with the NULL-DN and the identifier of the request, it can be decrypted to exactly a Rand, and the sender in it is the expected one.",
  "all messages, keys, indices, certificates and outcomes of decryption",
  "all messages",
  ["resources/extra_issuing_logic.py: process_pkimessage_with_popdecc, validate_popdecc_version, validate_rid_for_encrypted_rand, process_simple_challenge, _process_encrypted_rand, _may_get_kari_public_key"])
p("Contents of a challenge",
  "A challenge holds the given number (or a drawn one if none or 0 is given), the name of the sender, and with a hash function the hash of the four bytes of the number as witness; a wrong witness differs in the first byte. It is encrypted data iff the version is 3.",
  "all requests, numbers, names, hash functions and versions",
  "all numbers and names",
  ["resources/ca_ra_utils.py: build_popdecc_from_request, _prepare_rand, _prepare_witness_val, prepare_challenge, prepare_challenge_enc_rand"])
p("The open challenges of the Mock CA",
  "When the Mock CA sends a challenge, its number and transaction are open afterwards, all earlier ones stay open and nothing else is added. The key of the CA is that for the kind of proof and key. In version 3 the request is not protected with a MAC.",
  "all states, configurations and requests",
  "all histories of open challenges",
  ["mock_ca/challenge_handler.py: ChallengeHandler._process_challenge, _get_ca_key"])
p("The out-of-band hash of a CA certificate",
  "prepare_oob_cert_hash holds the hash, issuer and serial number of the certificate. validate_oob_cert_hash accepts iff the hash is right, issuer and serial number are those of the certificate, it is signed by itself, has equal subject and issuer alternative names if it has no name, and passes the linter.",
  "all certificates, hashes and hash functions",
  "all certificates and hashes",
  ["resources/ca_ra_utils.py: prepare_oob_cert_hash, validate_oob_cert_hash"])
p("Which responses of a CA pass the check of the body",
  "validate_ca_message_body accepts iff the message is an ip, cp, kup or ccp of the expected size, the response has the right certReqId, and it is either granted without failInfo, with a certificate, a private key iff the CA made it (EnvelopedData in version 3 only) and caPubs that are trust anchors of a valid chain, or rejected without certificate and caPubs.",
  "all messages, numbers of responses, indices and outcomes of chain checks",
  "all messages and indices, and the effect on the message",
  ["resources/checkutils.py: validate_ca_message_body, validate_certReqId", "resources/cmputils.py: get_pkistatusinfo"])
p("The key pair, the certificate and caPubs of a response",
  "validate_certified_key_pair_structure, the two checks for a private key and an encrypted certificate, get_cert_from_pkimessage and validate_ca_msg_ca_pubs_field accept or answer exactly as their documentation says, and the certificate can be read repeatedly.",
  "all messages and indices",
  "all messages and the effect on them",
  ["resources/checkutils.py: validate_certified_key_pair_structure, check_if_response_contains_private_key, check_if_response_contains_encrypted_cert, validate_ca_msg_ca_pubs_field", "resources/cmputils.py: get_cert_from_pkimessage, get_cert_response_from_pkimessage"])
p("Cross certification responses and the confirmation of the CA",
  "validate_cross_certification_response accepts iff the message is a ccp with one response, is signed, has extraCerts and passes the check of the body. validate_pki_confirmation_message accepts iff the message is a pkiconf, has extraCerts unless they may be cached, follows a CA message, and its protection fits that of the CA message.",
  "all messages and kinds of protection",
  "all combinations",
  ["resources/checkutils.py: validate_cross_certification_response, validate_pki_confirmation_message"])
p("Revocation is checked before a hybrid certificate is issued",
  "HybridIssuingHandler.is_revoked_for_issuing accepts a request iff the certificate of its signer is not hybrid, or is a hybrid one that is, like the certificates it comes with, neither revoked nor updated.",
  "all requests, certificates, kinds of hybrid certificates and states of the revocation database",
  "all states of the database and all kinds",
  ["mock_ca/hybrid_handler.py: HybridIssuingHandler.is_revoked_for_issuing"])
p("Revocation of chameleon certificates and of signers of requests with several signatures",
  "A chameleon certificate passes iff it is neither revoked nor updated, and if both certificates were used, neither is its delta certificate. The delta key of a request passes iff the database does not know it as bad. A request with several signatures passes iff its certificates do.",
  "all requests, certificates and states of the revocation database",
  "all states of the database",
  ["mock_ca/hybrid_handler.py: ChameleonHandler.is_revoked, ChameleonHandler.is_delta_key_revoked, HybridIssuingHandler.is_revoked_for_request"])
p("Making and publishing certificates of the Sun hybrid scheme",
  "A request either changes nothing, or exactly one certificate is made for it and published with its alternative key and signature under its serial number, where the locations in it point. A response with an encrypted certificate never carries it in the clear and always needs a confirmation. Other entries of the published state are not changed.",
  "all requests, keys, states and outcomes of the builders",
  "all requests and histories of the published state",
  ["mock_ca/hybrid_handler.py: SunHybridHandler.process_request, SunHybridHandler._add_to_state", "pq_logic/hybrid_issuing.py: build_sun_hybrid_cert_from_request, build_enc_cert_response"])
p("Protection of responses and serial numbers in the Sun hybrid scheme",
  "A request with a MAC is answered with the same MAC, any other with a signature of the traditional key; the certificates in extraCerts come in a fixed order, that of the CA first for a signature. A serial number is the first of those drawn that is not in use.",
  "all requests, chains, states and sequences of random numbers",
  "all sequences of random numbers and all states",
  ["mock_ca/hybrid_handler.py: SunHybridHandler.sign_response", "mock_ca/ca_handler.py: _get_serial_number, process_sun_hybrid", "mock_ca/prot_handler.py: get_same_mac_protection"])
p("Every request for the Sun hybrid scheme is answered and recorded",
  "An answer to a request for a certificate means that the request passed the checks, that one certificate was made under an unused number and published, and that it is recorded as confirmed iff implicit confirmation was asked for and the certificate is not encrypted. Without an answer no certificate is recorded. Every other request is answered by an error message.",
  "all requests, states, random numbers and outcomes of the library",
  "all requests and histories",
  ["mock_ca/ca_handler.py: process_sun_hybrid, _after_request", "mock_ca/hybrid_handler.py: SunHybridHandler.validate_for_rev_request"])
p("The extensions of a new certificate",
  "check_extensions accepts a request iff its extensions are known (or unknown ones are allowed) and every check of an extension passes. For each of the six types that are looked at the certificate gets at most one extension; the extensions of the CA override those of the request. No extension of an accepted request is lost.",
  "all requests, lists of extensions of the CA, with duplicates, and outcomes of the checks",
  "all lists and orders of extensions",
  ["resources/certbuildutils.py: check_extensions, _get_not_included_extensions, extensions_contains_extn_id, _contains_unknown_extensions"])
p("Which cross-signed certificates pass",
  "validate_ca_cross_signed_cert accepts iff both certificates are of a CA, subject and issuer differ, the subject is not that of the issuing CA, the key identifiers differ and the authority key identifier is that of the issuer, the signature verifies, and the certificate fits the template and has its extensions.",
  "all certificates, templates and outcomes of the signature check",
  "all pairs of certificates and templates",
  ["resources/certutils.py: validate_ca_cross_signed_cert, _validate_cross_signed_cert, _validate_key_identifiers, is_ca_cert"])
p("Passwords of a fixed size",
  "get_password_in_size answers with the password itself for algorithms without a fixed size of the key, and otherwise with the password repeated up to exactly this size; an empty password is refused.",
  "all passwords, names of algorithms and sizes",
  "passwords of every length",
  ["resources/utils.py: get_password_in_size, expand_string_to_length"])
p("Recipient infos for a key or a password",
  "prepare_recip_info makes key transport for an RSA key, key agreement for an ECDH key, KEM recipient info for a KEM key, and otherwise a password recipient info; the recipient takes out of it exactly the content encryption key that was given, or the random one. An unsupported key, a missing password and a missing private key are refused.",
  "all keys, passwords, content encryption keys, identifiers and outcomes of the single builders",
  "all combinations of the optional arguments",
  ["resources/envdatautils.py: prepare_recip_info, parse_recip_info"])
p("The encrypted key of a proof of possession",
  "prepare_enc_key_for_popo makes enveloped data that the CA opens: the recipient info has the key of the content. The recipient is named by the certificate of the CA for a KEM key and by the CMP protection certificate otherwise, and the version is that of RFC 5652.",
  "all private keys that are sent, CA certificates, recipient infos, identifiers and content encryption keys",
  "all combinations of the optional arguments and all keys",
  ["resources/envdatautils.py: prepare_enc_key_for_popo, _prepare_rid_for_enc_key, prepare_originator_with_rid, parse_encrypted_key_for_popo, prepare_enveloped_data"])
p("Which signed PKIMessages pass",
  "check_pkimessage_signature_protection accepts a message iff its algorithm is a known signature algorithm that fits, the sender and senderKID are those of the first certificate of extraCerts, and this certificate verifies the signature over the protected part.",
  "all messages, lists of certificates, settings and outcomes of the verification",
  "all messages and all positions of the right certificate",
  ["resources/checkutils.py: check_pkimessage_signature_protection, find_right_cert_pos, check_sender_cmp_protection, validate_senderkid_for_cmp_protection", "resources/certutils.py: verify_signature_with_cert"])
with open("/verif/properties.jsonl","w") as f:
    for x in P: f.write(json.dumps(x)+"\n")
print(len(P))
