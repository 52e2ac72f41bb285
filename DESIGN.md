# Formal model of siemens/cmp-test-suite in Rocq

`/repo` (Python) was read as text; nothing is executed.  The deliverable is the
Coq development in `rocq/theories`: a model of parts of the code, function by
function, and theorems about it.  This file is produced by `tools/design.py`
from the hand-written parts in `tools/design/`, from `properties.jsonl`, from
`MANIFEST.json` and from the citations in the model files.

## 1. Method

* Every model definition is a total, computable Gallina function that mirrors
  one Python function, with a comment citing file, lines and symbol.  Where the
  model is simpler than the code the comment says so.
* Python exceptions are values (`result`, `Ok`/`Err` in `Prelude.v`).  Loops
  that Python bounds by a range are structural recursions; loops that Python
  does not bound (rejection sampling) take fuel, and a run that runs out of fuel
  is stated as "has not returned", never as a result.
* External primitives (hash functions, XOFs, RSA/EC operations, ASN.1 decoding of
  foreign structures, clocks, random numbers) are arguments: fields of an
  environment record or parameters of the functions.  Theorems quantify over
  all of them, or state the exact law they need as a hypothesis, and an
  `Example` beside the theorem exhibits an instance that satisfies it.
* Layout: `*Model.v` model, no proofs; `*Spec.v` the small vocabulary used in
  statements, independent of the model's helpers; `*Properties.v` only the
  property theorems, their non-vacuity examples and `Print Assumptions`; all
  other files are lemmas.
* A property that is false of the code is kept in `properties.jsonl` as a user
  would expect it.  The model then carries the part that is true and a theorem
  named `..._refuted` that proves the negation on the faithful model.
* Every theorem is tested against wrong programs: `tools/mutate.py` edits one
  model definition at a time in a scratch copy and rebuilds; `seeded/LOG.jsonl`
  has one line for each attempt.

## 2. Trusted base

* The Coq 8.16.1 kernel, including its virtual machine (`vm_compute` is used for
  finite tables: the NTT root tables, parameter sets, byte sweeps, and for the
  concrete non-vacuity runs).  `native_compute` is not used.
* `Print Assumptions` is run on every property theorem in the `*Properties.v`
  files and prints `Closed under the global context` for each of them: no
  axiom is used by any theorem in the manifest.
* `coqchk` lists seven library axioms for the development as a whole
  (`Coq.ssr.ssrunder.Under_rel.Under_rel`, `.Under_rel_from_rel`,
  `.Under_relE`, `.Over_rel`, `.over_rel`, `.over_rel_done`, `.under_rel_done`).
  They are the opaque module interface of ssreflect's `under` tactic, part of
  Coq's own distribution, and appear because standard-library files that the
  development requires load it.  No theorem depends on them.
* No axiom, `Variable`/`Hypothesis` outside sections, functor, module type,
  `Admitted`, plugin or disabled kernel check is used.
* The reading of the Python source: that each cited definition means what the
  cited lines mean, and Python's own semantics for the constructs used (integers,
  slices, `bytes`, dictionaries, exceptions).
* What the theorems assume about external code is visible in their statements:
  lengths of hash outputs, correctness of the classical signature, RSA, ECDH
  primitives, and reading back what the `cryptography` and `pyasn1` libraries
  write.  Computational assumptions are never assumed; where security is meant the
  theorem gives an explicit reduction (for example C54: an accepted forgery
  contains a second preimage or a chain value).

## 3. General simplifications

* ASN.1 structures are records of the fields that the modelled code reads; DER
  encoding itself is not modelled except where the code looks at bytes.
* `logging`, Robot Framework keyword decoration, type checks that only guard the
  test author's usage, and text of error messages are left out.  Exceptions are
  kept apart by class.
* Python `int` is `Z`, `bytes` is `list Z` with the predicate `is_bytes`;
  `str` is Coq's `string` (8-bit characters) where text is compared.
* Concurrency: the Flask application handles a request as one atomic step.  The
  state theorems range over all finite sequences of such steps.
* A pyasn1 Choice drops its value when another alternative is read by name.  This
  is modelled for `certOrEncCert` (C154, C155) and is an assumption on the library.
* Wall-clock time, file system and network are not modelled.

## 4. Properties: model, method, result

The plan of each property and where it stands.  Status and theorem names are those of `MANIFEST.json`.

### C01 Certificate life-cycle follows the documented transition graph

* Method: Operations of the certificate database as a step function on lists of entries; edges given as an inductive relation in CADbSpec; invariant over all operation lists.
* Status: proved; file: `CADbProperties.v`
* Theorems: `C01_lifecycle_edges`, `C01_change_accepted_iff`

### C02 A revoked certificate stays revoked until it is explicitly revived

* Method: Same model; invariant over histories that contain no revive or key update for the digest, plus a refutation of the unrestricted claim.
* Status: partial; file: `CADbProperties.v`
* Theorems: `C02_revoked_stays_revoked_partial`, `C02_revoked_until_revived_refuted`
* Note: Holds until a revive or key-update call for the same digest; the unrestricted statement is refuted (key update accepted for a revoked certificate).

### C03 The certificate database is append-only

* Method: Prefix/immutability relation proved per operation and lifted to histories by induction.
* Status: proved; file: `CADbProperties.v`
* Theorems: `C03_append_only`, `C03_add_appends_one`, `C03_change_touches_one`

### C04 issued / revoked / updated / not-confirmed views partition the database

* Method: Each view characterised by membership <-> state predicate; partition as a permutation.
* Status: proved; file: `CADbProperties.v`
* Theorems: `C04_views`

### C05 OCSP answers agree with the certificate database

* Method: Complete case characterisation of the answer function over the lists; refutation for updated certificates.
* Status: partial; file: `CADbProperties.v`
* Theorems: `C05_ocsp_agrees_partial`, `C05_revoked_answers_revoked`, `C05_good_answers_good`, `C05_unknown_answers_unauthorized`, `C05_updated_not_answered_refuted`
* Note: All cases of the answer are characterised; the case of a certificate that is only updated raises instead of answering (refuted theorem).

### C06 CRL content and CRL numbers

* Method: Membership characterisation of the list; monotonicity of numbers over histories; refutation for the second store.
* Status: partial; file: `CADbProperties.v`
* Theorems: `C06_crl_content`, `C06_revdb_crl_numbers_increase`, `C06_certdb_crl_number_constant_refuted`
* Note: CRL content and CertRevStateDB numbers proved; CertificateDB number never increases (refuted theorem).

### C07 removeFromCRL takes exactly one matching entry off the revocation list

* Method: Removal shown to be the split at the first match.
* Status: proved; file: `CADbProperties.v`
* Theorems: `C07_remove_from_crl`, `C07_other_reason_appends`, `C07_removed_not_revoked`, `C07_others_unaffected`

### C08 A revoked key is recognised in every hybrid/composite packaging

* Method: Keys as an inductive type (plain/hybrid) with decidable equality; iff with the component relation.
* Status: proved; file: `CADbProperties.v`
* Theorems: `C08_revoked_key_recognised`

### C09 Requests that carry a compromised key are detected whatever the position of the key

* Method: Requests as lists of optional keys; iff on the good part and refutations.
* Status: partial; file: `CADbProperties.v`
* Theorems: `C09_compromised_key_detected_partial`, `C09_no_false_alarm`, `C09_hidden_by_missing_key_refuted`, `C09_ccr_never_scanned_refuted`
* Note: Exact for ir/cr/kur/p10cr when every template has a key; deviations refuted.

### C10 Key-reuse check is complete and symmetric

* Method: iff against a symmetric relation, and the refuted case.
* Status: partial; file: `CADbProperties.v`
* Theorems: `C10_key_reuse_partial`, `C10_no_false_alarm`, `C10_trad_vs_pq_missed_refuted`, `C10_status_priority`
* Note: Exact characterisation; the traditional-vs-PQ component case is missed by the code (refuted theorem).

### C11 Transaction identifiers are never reused while in use

* Method: Transition system of the whole request handler; invariant over histories of requests with arbitrary environments.
* Status: proved; file: `CAProperties.v`
* Theorems: `C11_take_only_unused`, `C11_unused_accepted`, `C11_in_use_rejected`, `C11_rejected_unchanged`, `C11_reuse_needs_removal`, `C11_removed_is_free`, `C11_granted_once_partial`, `C11_challenge_not_reserved_refuted`
* Note: Unit level complete. At system level, ids are granted certificates once except for transactions answered through a challenge, which are not reserved (refuted theorem).

### C12 A KEM shared secret authenticates at most one non-confirmation request

* Method: Event history over the handler model; at-most-once by an invariant relating the spent list to accepted requests.
* Status: partial; file: `CAProperties.v`
* Theorems: `C12_unusable_secret_rejected`, `C12_secret_used_once_partial`, `C12_secret_was_agreed`, `C12_rr_replays_secret_refuted`, `C12_challenge_keeps_secret_refuted`, `C12_rejected_request_spends_secret_refuted`
* Note: Requests other than rr and challenge requests: proved. Deviations refuted by witness: rr may use a spent secret, an accepted request that is answered with a challenge does not spend it, a rejected request may spend it.

### C13 A POP challenge can be answered at most once and only with its own value

* Method: Challenge dictionary in the handler model; at-most-once over histories.
* Status: proved; file: `CAProperties.v`
* Theorems: `C13_answer_matches_challenge`, `C13_answered_once`

### C14 A stateful-signature leaf index is never accepted twice for a key

* Method: Invariant relating recorded indices to accepted signatures, over histories.
* Status: partial; file: `CAProperties.v`
* Theorems: `C14_index_accepted_once_partial`, `C14_revocation_index_reused_refuted`, `C14_batched_confirmation_index_reused_refuted`, `C14_same_key_other_certificate_refuted`
* Note: Per certificate and for every message whose protection the CA verifies. Refuted for revocation requests, certConf inside a batch, and for a second certificate of the same key. The range of the index is checked by the signature scheme, which is not modelled.

### C15 certConf is accepted only for the transaction it belongs to, once

* Method: Product of the confirmation state and the certificate database; history theorem.
* Status: partial; file: `CAProperties.v`
* Theorems: `C15_certconf_accepted_partial`, `C15_confirmed_once`, `C15_refused_certificate_confirmed_refuted`
* Note: Complete except that a certConf with status 'rejection' is accepted without comparing the hash and confirms the certificate (refuted theorem).

### C16 Revoked or updated certificates cannot sign new requests

* Method: Decision function characterised for all states, bodies and times.
* Status: proved; file: `CAProperties.v`
* Theorems: `C16_bad_signer_rejected`, `C16_good_signer_allowed`, `C16_pending_update_rules`, `C16_nested_revoked_signer_refuted`
* Note: For the request itself; the signer of a message inside a nested message is not checked by the code (refuted theorem).

### C17 Revocation requests are all-or-nothing and only affect the named certificates

* Method: Frame theorem of the revocation handler for all states; all-or-nothing by case analysis.
* Status: partial; file: `CAProperties.v`
* Theorems: `C17_revocation_all_or_nothing_partial`, `C17_failure_after_revocation_refuted`
* Note: The CA accepts exactly one entry per rr. Complete for every reply; when the response cannot be protected the client sees HTTP 500 after the change (refuted theorem).

### C18 Nested messages are dispatched by the number of inner messages

* Method: Dispatch function; uniqueness check equals NoDup; responses by induction over the batch.
* Status: proved; file: `CAProperties.v`
* Theorems: `C18_empty_nested_refused`, `C18_one_inner_is_added_protection`, `C18_batch_answered_in_order`, `C18_refused_batch_keeps_effects_refuted`
* Note: A refused batch keeps the effects of earlier messages (separate refuted theorem).

### C19 Error responses are bound to the request

* Method: All exits of the handler enumerated; ids of the response traced to the request.
* Status: partial; file: `CAProperties.v`
* Theorems: `C19_reply_bound_to_request_partial`, `C19_ids_echoed`, `C19_batch_refusal_other_ids_refuted`
* Note: Complete except for a refused batch, whose error may carry the ids of an inner message (refuted theorem).

### C20 Key-update history is a chain inside the database

* Method: Fuelled walk; invariant that update links stay inside the database and are acyclic over histories.
* Status: proved; file: `CADbProperties.v`
* Theorems: `C20_update_history_chain`, `C20_none_iff_not_updated`

### C21 ML-KEM byte encoding round-trips

* Method: Generic bit-packing lemmas (LatBase) by induction on lists.
* Status: proved; file: `MlKemProperties.v`
* Theorems: `C21_decode_encode`, `C21_encode_decode`, `C21_encode_decode_12_refuted`, `C21_decode_short`, `C21_bits_bytes`, `C21_bytes_bits`
* Note: The d = 12 bytes-to-bytes direction is false by design (values of q and above are reduced); stated as a refutation.

### C22 ML-KEM compression error bound

* Method: Arithmetic over Z.
* Status: proved; file: `MlKemProperties.v`
* Theorems: `C22_compress_error`, `C22_compress_decompress`, `C22_compress_rounds`
* Note: Also: compression is rounding to nearest modulo 2^d.

### C23 ML-KEM NTT is inverted by the inverse NTT

* Method: Layer-wise inversion of butterflies; only the root table is computed.
* Status: proved; file: `MlKemProperties.v`
* Theorems: `C23_intt_ntt`, `C23_ntt_intt`
* Note: Both directions.

### C24 ML-KEM NTT multiplication is ring multiplication

* Method: NTT as evaluation map of the negacyclic ring, layer by layer (LatRing, LatNtt).
* Status: proved; file: `MlKemProperties.v`
* Theorems: `C24_ntt_multiplication`

### C25 ML-KEM sampling stays in range

* Method: Induction over the stream.
* Status: proved; file: `MlKemProperties.v`
* Theorems: `C25_cbd_range`, `C25_sample_ntt`, `C25_sample_ntt_range`
* Note: sample_ntt characterised exactly, including the RuntimeError when the stream runs out.

### C26 ML-KEM decapsulation inverts encapsulation

* Method: Ring algebra on top of C21-C25; the no-failure event is an explicit hypothesis with a concrete instance.
* Status: proved; file: `MlKemProperties.v`
* Theorems: `C26_decaps_encaps`, `C26_keygen_total`, `C26_key_sizes`
* Note: Conditional on the FIPS 203 no-failure event, stated in the coefficient ring (MlKemSpec.no_failure).

### C27 ML-KEM implicit rejection

* Method: Case analysis of decapsulation with injectivity of the ciphertext encoding.
* Status: proved; file: `MlKemProperties.v`
* Theorems: `C27_decaps_outcome`, `C27_decaps_rejects`, `C27_decaps_long_rejects`, `C27_decaps_short_raises`
* Note: Over-long ciphertexts are implicitly rejected; too short ones raise IndexError (C27_decaps_short_raises).

### C28 ML-DSA integer/bit packing round-trips

* Method: Generic bit-packing lemmas.
* Status: proved; file: `MlDsaProperties.v`
* Theorems: `C28_integer_bits`, `C28_bits_integer`, `C28_simple_roundtrip`, `C28_simple_canonical`, `C28_roundtrip`, `C28_canonical`, `C28_short`, `C28_bit_length`
* Note: Both directions, all bounds; too short input raises IndexError.

### C29 ML-DSA hint encoding is injective and rejects malformed input

* Method: Induction over the packed positions; canonicity.
* Status: proved; file: `MlDsaProperties.v`
* Theorems: `C29_roundtrip`, `C29_canonical`, `C29_unmalleable`, `C29_total`
* Note: All hints and all byte strings of length omega+k, three parameter sets.

### C30 ML-DSA key and signature codecs round-trip

* Method: Composition of C28/C29 with chunking lemmas.
* Status: proved; file: `MlDsaProperties.v`
* Theorems: `C30_lengths`, `C30_public_key`, `C30_public_key_canonical`, `C30_secret_key`, `C30_secret_key_canonical`, `C30_signature`, `C30_signature_canonical`
* Note: Both directions and the standard lengths.

### C31 ML-DSA rounding functions satisfy their defining equations

* Method: Arithmetic over Z.
* Status: proved; file: `MlDsaProperties.v`
* Theorems: `C31_power2round`, `C31_modpm`, `C31_decompose`, `C31_decompose_unique`, `C31_hint_coefficient`, `C31_hint`, `C31_high_bits_stable`
* Note: Coefficient-wise and for use_hint/make_hint on vectors.

### C32 ML-DSA NTT is inverted by the inverse NTT and is multiplicative

* Method: As C23/C24, instance of the generic development.
* Status: proved; file: `MlDsaProperties.v`
* Theorems: `C32_inverse`, `C32_multiplicative`, `C32_additive`
* Note: All integer polynomials; product is that of Z_q[X]/(X^256+1).

### C33 ML-DSA signatures verify

* Method: Composition; ring algebra of the verification equation, hint lemma, encodings.
* Status: proved; file: `MlDsaProperties.v`
* Theorems: `C33_keygen`, `C33_verify`, `C33_hash_verify`, `C33_long_context`, `C33_deterministic`
* Note: For every hash function family of the right output lengths; the rejection loop is fuelled, a fuel-exhausted run is a run that has not returned. Pure and pre-hash variants.

### C34 SLH-DSA base-2^b digits

* Method: Induction on digits.
* Status: proved; file: `SlhProperties.v`
* Theorems: `C34_digits`, `C34_range`, `C34_short`, `C34_int_of_bytes`, `C34_bytes_of_int`

### C35 SLH-DSA signatures verify

* Method: Chains, trees, hypertree and FORS by induction for abstract hash functions.
* Status: proved; file: `SlhProperties.v`
* Theorems: `C35_roundtrip`, `C35_sizes`, `C35_verify_total`, `C35_sign_total`, `C35_long_context`, `C35_wots`, `C35_xmss`, `C35_fors`, `C35_hypertree`
* Note: All twelve parameter sets and all hash functions with the right output lengths; the layers are stated one by one as well.

### C36 SLH-DSA pre-hash signatures verify

* Method: Refutation on the model with a concrete hash.
* Status: partial; file: `SlhProperties.v`
* Theorems: `C36_refuted`, `C36_names_refuted`
* Note: The claim is false of hash_slh_sign and hash_ml_dsa_verify: C36_refuted (swapped arguments of the internal signer) and C36_names_refuted (no name accepted by both).

### C37 SLH-DSA address fields are independent

* Method: Byte-slice lemmas on the 32-byte address.
* Status: proved; file: `SlhProperties.v`
* Theorems: `C37_set_layer`, `C37_set_tree`, `C37_set_key_pair`, `C37_set_height`, `C37_set_index`, `C37_get`, `C37_set_type`, `C37_compressed`, `C37_fields`
* Note: int.to_bytes on a value that does not fit raises in the code and is reduced in the model; all values are in range.

### C38 FrodoKEM packing and encoding round-trip

* Method: FrodoModel.v models matrices as lists of rows and bit strings as lists of bits; packing and encoding are characterised bit by bit (FrodoProofs.v) for symbolic dimensions, sampling by the intervals of the published table.
* Status: proved; file: `FrodoProperties.v`
* Theorems: `C38_unpack_pack`, `C38_pack_unpack`, `C38_pack_positions`, `C38_decode_encode_exact`, `C38_decode_encode`, `C38_encode_entries`, `C38_sample_distribution`, `C38_sample_weights`
* Note: Exact for all matrices, byte strings, messages, noise matrices and 16-bit samples, for the three parameter sets. The floating-point rounding in decode is modelled by exact rationals (exact for the entries the KEM passes).

### C39 FrodoKEM decapsulation inverts encapsulation

* Method: FrodoKem.v and FrodoTop.v compute key generation, encapsulation and decapsulation symbolically for any parameter set with q = 2^D; the noise identity is proved with double sums; FrodoMain.v specialises to the three parameter sets. Implicit rejection follows from packing being a bijection.
* Status: proved; file: `FrodoProperties.v`
* Theorems: `C39_agreement`, `C39_implicit_rejection`, `C39_key_contents`, `C39_ciphertext_contents`, `C39_lengths`, `C39_key_object`, `C39_key_object_decaps`, `C39_load_length_refuted`, `C39_key_object_agreement`
* Note: For all seeds, randomness, keys and ciphertexts, with SHAKE and AES as parameters; contents of keys and ciphertexts are pinned to the specification. Finding: without liboqs private bytes of any length load as a key (C39_load_length_refuted).

### C40 Hybrid and composite KEMs agree on the secret

* Method: Exact characterisation of encaps and decaps against the combiners of the drafts; agreement from the correctness of the halves; suffix-free contexts and identifiers for the binding theorems.
* Status: partial; file: `HybKemProperties.v`
* Theorems: `C40_xwing_encaps`, `C40_xwing_decaps`, `C40_xwing_agreement`, `C40_xwing_seed`, `C40_xwing_binding`, `C40_xwing_length_refuted`, `C40_chempat_encaps`, `C40_chempat_decaps`, `C40_chempat_agreement`, `C40_kem_half`, `C40_chempat_binding`, `C40_chempat_context`, `C40_chempat_context_refuted`, `C40_chempat_oid`, `C40_comp_oid`, `C40_comp_rows`, `C40_comp_encaps`, `C40_comp_decaps`, `C40_comp_agreement`, `C40_comp_default_kdf_refuted`, `C40_comp_binding`, `C40_comp_priv_oid`, `C40_comp_priv_oid_refuted`
* Note: Agreement, exact formulas, identifiers and binding for all keys, with the traditional mechanisms of C76 and the ML-KEM model; other post-quantum halves are parameters. The ciphertext does not split uniquely for X-Wing: trailing bytes are ignored (C40_xwing_length_refuted). Findings: by default (use_in_cms=True) the composite KDF is always SHA3-256 (C40_comp_default_kdf_refuted); AES and SHAKE FrodoKEM share a Chempat context (C40_chempat_context_refuted); private and public composite keys have different identifiers for odd RSA sizes (C40_comp_priv_oid_refuted).

### C41 Composite signatures need both components

* Method: Exact iff against a relational specification of the table, for all component schemes.
* Status: proved; file: `CompSigProperties.v`
* Theorems: `C41_verify`, `C41_row_unique`, `C41_not_short`, `C41_sign`, `C41_sign_verify`, `C41_representative`, `C41_oid`, `C41_rsa_rounding_refuted`, `C41_default_padding_refuted`, `C41_default_spki_refuted`
* Note: Exact for all keys, contexts and messages, with the component schemes as parameters (ML-DSA is the verified model). Findings: RSA keys of unlisted sizes sign but never verify (C41_rsa_rounding_refuted); ML-DSA-87 with RSA always fails with the default padding argument (C41_default_padding_refuted); the default exported identifier is not the one signed with by default (C41_default_spki_refuted).

### C42 HSS/LMS configurations: level rules and leaf index

* Method: The tables of names, codes and sizes are compared with formulas for the 80 parameter sets by computation; level lists, encodings and the mixed-radix number by induction. The library parser is a parameter; a reference parser shows the assumptions can be met.
* Status: partial; file: `StfProperties.v`
* Theorems: `C42_levels`, `C42_public_any_case`, `C42_levels_flag`, `C42_levels_error`, `C42_enforce_lw_refuted`, `C42_public_key`, `C42_public_key_wire`, `C42_key_valid`, `C42_signature_length`, `C42_index`, `C42_index_is_position`, `C42_index_unique`, `C42_index_range`, `C42_index_counts`, `C42_mixed_heights_refused_refuted`, `C42_mixed_heights_position_refuted`, `C42_leaf_index`, `C42_leaf_index_unique_refuted`
* Note: Exact for all level lists, all public keys and all well-formed signatures, under the assumption that pyhsslms reads RFC 8554 encodings (a parser doing so is given). Refuted: enforce_lw removes the uniformity rules it is documented to add (C42_enforce_lw_refuted); with trees of different heights valid signatures are refused or counted with gaps (C42_mixed_heights_refused_refuted, C42_mixed_heights_position_refuted); get_leaf_index repeats (C42_leaf_index_unique_refuted).

### C43 Nonce-diversity keyword decides exactly pairwise Hamming distance

* Method: iff with a pairwise statement over positions.
* Status: proved; file: `HdrProperties.v`
* Theorems: `C43_diverse`, `C43_unique`, `C43_diverse_is_unique`, `C43_only_valueerror`
* Note: Exact characterisation of both keywords; distance counted over the zero-padded strings.

### C44 Manipulating a signature or MAC always changes it

* Method: Byte arithmetic.
* Status: proved; file: `HdrProperties.v`
* Theorems: `C44_changes`, `C44_empty`, `C44_twice`, `C44_twice_refuted`
* Note: Change of exactly the first byte proved; the involution holds only for first bytes 0 and 1 (C44_twice, C44_twice_refuted).

### C45 Header binding checks

* Method: Optional header fields; iff.
* Status: proved; file: `HdrProperties.v`
* Theorems: `C45_transaction_id`, `C45_nonces`, `C45_sender_and_recipient`, `C45_same_name`
* Note: Exact characterisations.

### C46 Certificate-chain construction

* Method: Fuelled search with an invariant; termination bound by the pool size.
* Status: proved; file: `CertChainProperties.v`
* Theorems: `C46_chain`, `C46_stops`, `C46_complete`, `C46_total`, `C46_message`, `C46_self_signed_refuted`, `C46_repetition_refuted`, `C46_unreadable_refuted`
* Note: Exact shape, completeness and termination. Findings: must_be_self_signed compares names only, cyclic pools give repetitions, an unreadable key hides the issuer (three _refuted theorems).

### C47 Certificates handed out are recorded, refused requests leave the database unchanged

* Method: History invariant of the handler.
* Status: partial; file: `CAProperties.v`
* Theorems: `C47_issued_certificates_recorded_partial`, `C47_challenge_certificate_unrecorded_refuted`, `C47_refused_stateful_request_recorded_refuted`
* Note: Refuted for certificates obtained through a challenge and for refused requests with a stateful key whose proof of possession is unreadable.

### C48 The state of a certificate changes only on the authority of a suitable message

* Method: History invariant of the handler.
* Status: proved; file: `CAProperties.v`
* Theorems: `C48_state_changes_need_authority`

### C49 Serving requests never loses or rewrites a database entry

* Method: Append/immutability relation lifted from the database operations to whole requests and histories.
* Status: proved; file: `CAProperties.v`
* Theorems: `C49_database_append_only`

### C50 ML-DSA verification decides the FIPS 204 equation

* Method: iff between verification and the equation of FIPS 204 in the coefficient ring.
* Status: proved; file: `MlDsaProperties.v`
* Theorems: `C50_decides`, `C50_truncated`, `C50_trailing_bytes`, `C50_unique_encoding_refuted`
* Note: accepts is FIPS 204 verification in the coefficient ring; RuntimeError is the exhausted XOF. Finding: trailing bytes are ignored (C50_unique_encoding_refuted).

### C51 ML-DSA sampled values have the prescribed shape

* Method: Induction over the XOF stream; exact counts of nonzero coefficients and ranges.
* Status: proved; file: `MlDsaProperties.v`
* Theorems: `C51_challenge`, `C51_matrix`, `C51_secret`, `C51_mask`

### C52 ML-DSA contexts, messages and modes are never confused

* Method: Injectivity of the message representative, and case analysis of the entry points.
* Status: proved; file: `MlDsaProperties.v`
* Theorems: `C52_pure_format`, `C52_prehash_format`, `C52_injective`, `C52_prehash_injective`, `C52_unknown_prehash`

### C53 SLH-DSA digit vectors of different messages are incomparable

* Method: Arithmetic of the Winternitz checksum digits.
* Status: proved; file: `SlhProperties.v`
* Theorems: `C53_incomparable`, `C53_defined`

### C54 An accepted SLH-DSA signature is the key owner's, or breaks the hash

* Method: Explicit reduction: extraction of a collision or chain value from two accepted signatures.
* Status: proved; file: `SlhProperties.v`
* Theorems: `C54_accepted`, `C54_signed`
* Note: The reduction is explicit: the second preimage is one of the listed hash inputs of this verification, the chain value is a piece of the signature.

### C55 SLH-DSA contexts, messages and modes are never confused

* Method: Injectivity of the message representative, and case analysis of the entry points.
* Status: proved; file: `SlhProperties.v`
* Theorems: `C55_pure`, `C55_prehash`, `C55_modes`

### C56 SLH-DSA hash inputs are the prescribed ones and never ambiguous

* Method: Equality with the inputs written down from FIPS 205, and injectivity of their layout.
* Status: proved; file: `SlhHashProperties.v`
* Theorems: `C56_shake`, `C56_sha2_f`, `C56_sha2_128`, `C56_sha2_192_256`, `C56_unambiguous`

### C57 Which byte strings are private keys

* Method: Decision tree of the loaders characterised by lengths; all byte strings.
* Status: proved; file: `PqKeyProperties.v`
* Theorems: `C57_lengths`, `C57_other_lengths`, `C57_loaded`, `C57_forms_agree`, `C57_public`, `C57_factory_trailing`, `C57_factory_seed_and_key_refuted`
* Note: Findings: PQKeyFactory.from_private_bytes cuts its input to the expanded-key length first (C57_factory_trailing, C57_factory_seed_and_key_refuted).

### C58 Saved post-quantum keys load again as the same key

* Method: Round trip through the structure model, all keys and options.
* Status: proved; file: `PqKeyProperties.v`
* Theorems: `C58_roundtrip`, `C58_roundtrip_expanded`, `C58_version_0_with_public_key_refuted`, `C58_private_bytes`, `C58_private_bytes_expanded`, `C58_private_bytes_refuted`, `C58_must_be_version_2_refuted`, `C58_validated`, `C58_validated_exact`, `C58_validated_seed_and_raw_refuted`, `C58_validated_no_seed_refuted`
* Note: The exceptions are exact findings: version 0 with public key is written but refused, seeds that look like DER are refused, must_be_version_2 has no effect, the export check refuses two kinds of keys it should accept (the _refuted theorems).

### C59 A seed and an expanded key that do not belong together are refused

* Method: iff for the consistent schemes, refutations for the others.
* Status: partial; file: `PqKeyProperties.v`
* Theorems: `C59_dsa_slh`, `C59_kem_refuted`, `C59_one_asym_key_refuted`
* Note: True of from_private_bytes for ML-DSA and SLH-DSA (C59_dsa_slh); false for ML-KEM and for the both form of OneAsymmetricKey (C59_kem_refuted, C59_one_asym_key_refuted).

### C60 An attached public key is the private key's own

* Method: Case analysis of the loader, all structures.
* Status: proved; file: `PqKeyProperties.v`
* Theorems: `C60_attached`, `C60_mismatch`, `C60_empty_refuted`
* Note: Finding: an empty public key is not checked and replaces the key's own (C60_empty_refuted).

### C61 The ML-DSA public key computed from a private key is the generated one

* Method: Composition of the key codecs with the rounding lemmas.
* Status: proved; file: `PqKeyProperties.v`
* Theorems: `C61_derived`, `C61_size`

### C62 Loaded keys work

* Method: Composition with C26, C33 and C35.
* Status: proved; file: `PqKeyProperties.v`
* Theorems: `C62_kem`, `C62_dsa`, `C62_dsa_other_hash_refuted`, `C62_slh`, `C62_slh_other_hash`, `C62_prehashed`, `C62_dsa_signed`, `C62_dsa_verified`, `C62_slh_signed`, `C62_slh_verified`, `C62_separated`
* Note: Finding: ML-DSA sign ignores an unsupported hash algorithm while verify raises ValueError (C62_dsa_other_hash_refuted); SLH-DSA ignores it on both sides.

### C63 messageTime check

* Method: Interval arithmetic on times.
* Status: proved; file: `HdrProperties.v`
* Theorems: `C63_message_time`, `C63_interval_refuted`
* Note: Exact; finding: with a request the interval is one-sided (C63_interval_refuted).

### C64 generalInfo checks

* Method: List search characterised.
* Status: partial; file: `HdrProperties.v`
* Theorems: `C64_general_info`, `C64_every_entry_refuted`, `C64_profile_count_refuted`
* Note: The client-side check is characterised exactly; it looks only at the first entry of a type (C64_every_entry_refuted), and the CA-side profile count is reversed (C64_profile_count_refuted).

### C65 sender and senderKID fit the protection

* Method: Case analysis on sender and protection kind.
* Status: partial; file: `HdrProperties.v`
* Theorems: `C65_protection`, `C65_signature`, `C65_mac`, `C65_notation`, `C65_common_name_refuted`, `C65_notation_ambiguous`
* Note: Signature side exact; for MAC protection the commonName requirement is false (C65_common_name_refuted) because the textual form is never absent.

### C66 Identifiers in a nested request are fresh

* Method: iff.
* Status: proved; file: `HdrProperties.v`
* Theorems: `C66_nested_unique`
* Note: Exact characterisation.

### C67 Added protection repeats the identifiers

* Method: iff.
* Status: proved; file: `HdrProperties.v`
* Theorems: `C67_added_protection`
* Note: Exact characterisation.

### C68 A nested response answers every inner request

* Method: Induction over the batch.
* Status: partial; file: `HdrProperties.v`
* Theorems: `C68_nested_response_partial`, `C68_honest_accepted`, `C68_every_request_refuted`
* Note: Proved for batches without two requests of the same body type; refuted otherwise (C68_every_request_refuted).

### C69 Body types of responses

* Method: Inductive relation on nesting, fuel-free structural recursion.
* Status: proved; file: `HdrProperties.v`
* Theorems: `C69_body_types`
* Note: Exact characterisation against an inductive relation, for every nesting depth.

### C70 Identifiers and integrity of a request

* Method: iff.
* Status: proved; file: `HdrProperties.v`
* Theorems: `C70_request`, `C70_wrong_integrity`
* Note: Exact; a certConf must reuse the senderNonce of the request answered by the response.

### C71 The header check is the conjunction of its parts

* Method: Conjunction of the parts.
* Status: proved; file: `HdrProperties.v`
* Theorems: `C71_header`, `C71_bound_to_request`
* Note: Conjunction of parts that C45, C63, C64 and C65 characterise.

### C72 Order of a chain in extraCerts

* Method: Exact characterisation by positions; refutation of soundness.
* Status: partial; file: `CertChainProperties.v`
* Theorems: `C72_exact`, `C72_ordered_passes`, `C72_from_first`, `C72_issued`, `C72_sound_refuted`
* Note: Exact characterisation of what the code decides (C72_exact) and exact for chains starting at position 0 (C72_from_first); in general unordered chains can pass (C72_sound_refuted).

### C73 extraCerts validation

* Method: Composition with the chain model.
* Status: partial; file: `CertChainProperties.v`
* Theorems: `C73_response`, `C73_absent`, `C73_other`, `C73_order_refuted`, `C73_protection_cert`
* Note: Exact except for the order of the chain, which does not influence the outcome (C73_order_refuted).

### C74 Trust decisions

* Method: Composition with the chain model.
* Status: partial; file: `CertChainProperties.v`
* Theorems: `C74_anchors`, `C74_trusted`, `C74_key_usage_refuted`, `C74_system_store_refuted`, `C74_crl`
* Note: Exact; but a chain of one certificate is accepted without key usage check (C74_key_usage_refuted) and trustanchors=None trusts nothing (C74_system_store_refuted).

### C75 Composite signature keys survive saving and loading

* Method: Round trip for all keys, given that the library reads back what it writes.
* Status: partial; file: `CompLoadProperties.v`
* Theorems: `C75_public_roundtrip`, `C75_public_loaded_partial`, `C75_public_size_refuted`, `C75_private_loaded`, `C75_private_roundtrip`, `C75_seed_and_raw_refuted`, `C75_raw_refuted`
* Note: Everything but the size of an RSA public key: it is not compared with the identifier (C75_public_size_refuted). Saving raw keys gives something the loader cannot read (C75_raw_refuted), saving seed and key always fails (C75_seed_and_raw_refuted).

### C76 Traditional key encapsulation

* Method: Diffie-Hellman, OAEP and hash functions are parameters; RSA correctness is proved from Fermat.
* Status: proved; file: `TradKemProperties.v`
* Theorems: `C76_agreement`, `C76_dhkem_encaps`, `C76_dhkem_decaps`, `C76_dhkem_suite_refuted`, `C76_dhkem_suite`, `C76_ecdh_encoding`, `C76_dhkem_encoding_refuted`, `C76_ecdh_encaps`, `C76_ecdh_decaps`, `C76_ephemeral`, `C76_rsakem_agreement`, `C76_rsakem_encaps`, `C76_rsakem_decaps`, `C76_rsakem_binding`, `C76_rsakem_rand_refuted`, `C76_kdf3`
* Note: For all keys, randomness and library functions with symmetric Diffie-Hellman. Findings: brainpool curves share the KEM identifiers of the NIST curves (C76_dhkem_suite_refuted); DHKEM hashes the received encoding, so two encodings of a point give different secrets (C76_dhkem_encoding_refuted); an explicit RSA-KEM random value above the modulus makes the sides disagree (C76_rsakem_rand_refuted).

### C77 Hybrid key encapsulation keys survive saving and loading

* Method: Names are split for every row of the two tables; loading is characterised exactly against a description of the fields; saving followed by that description gives the round trips.
* Status: partial; file: `HybLoadProperties.v`
* Theorems: `C77_load`, `C77_load_algorithm`, `C77_load_unknown`, `C77_spki`, `C77_spki_algorithm`, `C77_spki_roundtrip`, `C77_save`, `C77_xwing_roundtrip`, `C77_xwing_no_seed`, `C77_xwing_long_seed_refuted`, `C77_chempat_roundtrip`, `C77_chempat_roundtrip_any`, `C77_chempat_mismatch`, `C77_chempat_public_refuted`, `C77_chempat_scalar_refuted`, `C77_comp_roundtrip`, `C77_comp_raw_refuted`
* Note: Exact loading for all identifiers and byte strings; round trips for X-Wing (all forms of 32 byte seeds), Chempat with ML-KEM (all forms) and composite keys in the default form. Refuted: a stored Chempat public key may have any post-quantum half (C77_chempat_public_refuted); raw and seed_and_raw composite exports are not read back (C77_comp_raw_refuted); keys of 96 byte X-Wing seeds lose the seed or are not read back (C77_xwing_long_seed_refuted); Chempat writes EC numbers with as many bytes as the curve has bits (C77_chempat_scalar_refuted).

### C78 Changing stateful signatures

* Method: The result is written as the encoding of another signature; reading it back uses the index theorem of C42.
* Status: partial; file: `StfProperties.v`
* Theorems: `C78_xmss_signature`, `C78_xmss_signature_total`, `C78_xmss_index`, `C78_xmss_index_read`, `C78_index_read_back_refuted`, `C78_hss_signature`, `C78_hss_index`, `C78_hss_default_index`, `C78_mt_index`
* Note: Exact results for all signatures. Refuted parts: the index is written little-endian and read big-endian (C78_index_read_back_refuted, exact form C78_xmss_index_read, C78_hss_index); the default index of HSS is out of range exactly for heights 5, 10 and 15 (C78_hss_default_index); the changed HSS byte is the first of the LM-OTS type code (C78_hss_signature).

### C79 Moving and exhausting stateful private keys

* Method: Byte string surgery on the secret key layout; HSS states are records read back by the library parameter.
* Status: partial; file: `StfProperties.v`
* Theorems: `C79_xmss_exact`, `C79_xmss_public_key`, `C79_change_index`, `C79_exhaust`, `C79_last_index`, `C79_last_index_alone_refuted`, `C79_used_index`, `C79_used_default`, `C79_hss_exact`, `C79_hss_exhaust`, `C79_hss_index_refuted`, `C79_hss_used_refuted`
* Note: Exact for XMSS and XMSS^MT; for HSS under the assumption that pyhsslms reads back what it serializes. Refuted parts: last_index without index (C79_last_index_alone_refuted), the index of HSS keys with two or more levels (C79_hss_index_refuted), used_index for HSS (C79_hss_used_refuted), used_index equal to the number of recorded keys is an IndexError (C79_used_index).

### C80 Loading stateful signature keys

* Method: Lookups against formulas for the registered numbers; slices of the secret key layout.
* Status: partial; file: `StfProperties.v`
* Theorems: `C80_xmss_public`, `C80_xmss_public_error`, `C80_mt_public`, `C80_mt_keyerror`, `C80_mt_registered_refuted`, `C80_xmss_secret`, `C80_mt_secret`, `C80_template_xmss`, `C80_template_hss`, `C80_template_error`, `C80_mt_approved_loadable`
* Note: Exact loading and public key extraction. Refuted part: registered XMSS^MT numbers 0x21 to 0x38 and unknown numbers end in a KeyError (C80_mt_registered_refuted, C80_mt_keyerror).

### C81 Testing bits by index and by name

* Method: Python string functions on ASCII strings (split, strip, isdigit) with lemmas for lists of padded names; counting set bits by induction.
* Status: partial; file: `BitProperties.v`
* Theorems: `C81_names`, `C81_index`, `C81_decimal`, `C81_decimal_list`, `C81_any_name`, `C81_exclusive_name`, `C81_exclusive_list`, `C81_unknown`, `C81_no_value`, `C81_blank_refuted`, `C81_exclusive_all_refuted`, `C81_documented_list_refuted`, `C81_negative`, `C81_negative_refuted`, `C81_name_index_refuted`
* Note: Exact for all bit strings, indices and texts listing names. Refuted parts: a blank after a comma changes the exclusive result (C81_blank_refuted); an exclusive list passes with only one of its bits set (C81_exclusive_all_refuted); the documented list "1, 9" is a ValueError (C81_documented_list_refuted); negative indices count from the end (C81_negative); a set bit past the names is overlooked by name (C81_name_index_refuted). Strings are modelled as ASCII.

### C82 Names and bits correspond

* Method: Names of set bits as a filter of the zipped lists; injectivity of joining; bits without trailing zeros are determined by the set positions.
* Status: proved; file: `BitProperties.v`
* Theorems: `C82_names_of_bits`, `C82_text_exact`, `C82_split`, `C82_bits_of_names`, `C82_unknown_name`, `C82_constructor`, `C82_round_trip`
* Note: For every table of distinct identifier-like names; the tables of key usage and failure information are shown to be such (C81_names). With no bit set the text splits into one empty name (C82_split).

### C83 Key usage is checked at four levels of strictness

* Method: Case analysis on the strictness over the exact results of C81 and C82.
* Status: partial; file: `BitProperties.v`
* Theorems: `C83_strictness_number`, `C83_strictness_text`, `C83_strictness_error`, `C83_exact`, `C83_unknown`, `C83_prepare`, `C83_prepare_unknown`, `C83_prepared_passes`, `C83_must_not`, `C83_must_not_absent`, `C83_must_not_refuted`
* Note: Exact at all levels for all usages. Refuted part: must_not_contain_key_usage refuses only if all given usages are there (C83_must_not, C83_must_not_refuted).

### C84 CMP extended key usage is checked at four levels of strictness

* Method: Counting of found OIDs against duplicate-free lists.
* Status: partial; file: `BitProperties.v`
* Theorems: `C84_exact`, `C84_prepare`, `C84_prepared_passes`, `C84_unknown`, `C84_documented_form_refuted`, `C84_repeated_passes_refuted`, `C84_repeated_fails_refuted`
* Note: Exact for extensions without repeated OIDs and names separated by single commas. Refuted parts: the documented form with a blank after the comma is always refused (C84_documented_form_refuted); repeated OIDs are counted (C84_repeated_passes_refuted, C84_repeated_fails_refuted).

### C85 Status checks of responses

* Method: Positions against numbers in the table of status values; the check as a conjunction of its tests.
* Status: partial; file: `BitProperties.v`
* Theorems: `C85_compare`, `C85_status_numbered`, `C85_not_exclusive_refuted`, `C85_reasons_refuted`, `C85_verify`, `C85_failures`, `C85_default_status`, `C85_default_refuted`, `C85_revocation`, `C85_revocation_rejection_refuted`
* Note: Exact for all messages and lists of names. Refuted parts: by default a wrong failure is tolerated (C85_default_refuted); rejected revocations never pass check_rp_cmp_message_body (C85_revocation_rejection_refuted, exact form C85_revocation); without exclusive the comparison of numbers is never true (C85_not_exclusive_refuted); CRL reasons are compared by position (C85_reasons_refuted).

### C86 Key usage of requests fits the key

* Method: The split text of the extension is characterised as the set of its usages; each rule is a subset or disjointness test; substring search in the joined text reduces to membership.
* Status: partial; file: `BitProperties.v`
* Theorems: `C86_request`, `C86_request_other`, `C86_request_none`, `C86_encipher_only_refuted`, `C86_ecdh_refuted`, `C86_logic`, `C86_logic_basic`, `C86_logic_refuted`, `C86_ensure`, `C86_ensure_default`, `C86_migration_kem`, `C86_migration_sig_refuted`, `C86_related`, `C86_related_refuted`, `C86_related_eku_refuted`, `C86_related_absent_refuted`
* Note: Exact for all usages and key kinds after the extensions are decoded. Refuted parts: encipherOnly and decipherOnly are never granted (C86_encipher_only_refuted); ECDH and ECMQV requests are unknown (C86_ecdh_refuted); the end-entity flag is reversed (C86_logic_refuted, exact form C86_logic); migration certificates with signature keys never pass with a key usage (C86_migration_sig_refuted); related certificates are compared by characters (C86_related_refuted), never pass with an extended key usage (C86_related_eku_refuted), and end in an AttributeError without key usage (C86_related_absent_refuted).

### C87 Password protection round trip

* Method: Preparation produces an identifier of known shape; the codec assumption turns the transported parameters back into it; both sides then compute the same function.
* Status: proved; file: `ProtProperties.v`
* Theorems: `C87_roundtrip`, `C87_roundtrip_lw`
* Note: For all options; the random parts are os.urandom of the two sides. AES-GMAC keys of a length the library refuses do not get protected in the first place.

### C88 Password protection is decided exactly

* Method: The check is inverted into a relation mac_value, one rule per algorithm; table lookups are decided over finite tables.
* Status: partial; file: `ProtMatchProperties.v`, `ProtProperties.v`
* Theorems: `C88_password`, `C88_decides`, `C88_decides_lw`, `C88_needs`, `C88_tamper`, `C88_empty_salt_refuted`
* Note: Exact for all algorithm identifiers. Refuted part: a PasswordBasedMac message with an empty salt is verified with a fresh random salt, so the decision depends on the verifier's random bytes (C88_empty_salt_refuted). Identifiers of signature algorithms count as one-way functions and pseudo-random functions outside the profile (visible in prf_hashes and owf_hashes).

### C89 Protection with an agreed secret

* Method: As C88, with the symmetric key agreement of the library assumed symmetric.
* Status: partial; file: `ProtProperties.v`
* Theorems: `C89_roundtrip`, `C89_decides`, `C89_key_refuted`, `C89_sha3_refuted`
* Note: Exact. Refuted parts: with KMAC and GMAC the key is taken from the shared secret itself, not from its hash (C89_key_refuted); SHA-3 one-way functions end in a KeyError (C89_sha3_refuted). The shared secret is given as bytes.

### C90 Protection with a key encapsulation mechanism

* Method: As C88, with decapsulation assumed to undo encapsulation; the first ciphertext of the header by induction on generalInfo.
* Status: partial; file: `ProtProperties.v`
* Theorems: `C90_roundtrip_given`, `C90_roundtrip_decaps`, `C90_roundtrip_encaps`, `C90_accepts`, `C90_rejects`, `C90_pbkdf2_refuted`, `C90_second_ciphertext_refuted`, `C90_untransported_refuted`
* Note: Exact acceptance; round trips for KDF2, KDF3 and HKDF. Refuted parts: PBKDF2 (C90_pbkdf2_refuted), a header that already has a ciphertext (C90_second_ciphertext_refuted), the message object before it is encoded (C90_untransported_refuted). Decapsulation of the library is a parameter that undoes its encapsulation.

### C91 Signature protection round trip

* Method: The identifier chosen for each key kind and hash is shown to fit the key (sig_scheme) and to name the scheme that was signed with, by enumeration of the tables.
* Status: partial; file: `ProtProperties.v`
* Theorems: `C91_roundtrip`, `C91_pss_hash_refuted`, `C91_other_keys_refuted`
* Note: For all RSA, EC, Ed25519, Ed448, post-quantum and stateful keys, without random parameters. Refuted parts: RSASSA-PSS with a hash other than SHA-256 and SHAKE (C91_pss_hash_refuted); rsassa_pss with other keys, DSA keys and composite keys (C91_other_keys_refuted).

### C92 Signature algorithm identifiers are bound to the key

* Method: Inversion of validation, consistency check and dispatch into the relation sig_scheme.
* Status: partial; file: `ProtProperties.v`
* Theorems: `C92_identifier`, `C92_message`, `C92_certificate_partial`, `C92_tamper`, `C92_certificate_refuted`, `C92_composite_refuted`
* Note: Exact with a public key. With the certificate only for identifiers that fit the key (C92_certificate_partial). Refuted parts: the certificate path checks neither parameters nor family (C92_certificate_refuted); a composite identifier is not compared with the key's (C92_composite_refuted).

### C93 The kind of protection is determined by the algorithm

* Method: Enumeration of the tables against the description oid_kind.
* Status: proved; file: `ProtProperties.v`
* Theorems: `C93_kind`, `C93_kind_unique`, `C93_unknown`, `C93_message`, `C93_errors`

### C94 Derived keys have the prescribed contents and length

* Method: Induction over the loops, with the number of rounds as a ceiling division.
* Status: partial; file: `ProtHybProperties.v`, `ProtProperties.v`
* Theorems: `C94_dh_counter`, `C94_x963`, `C94_x963_prefix`, `C94_x963_limit`, `C94_dh_key`, `C94_dh_key_length_partial`, `C94_dh_key_length_refuted`
* Note: Exact. Refuted part: the DHBasedMac key derivation can return fewer bytes than asked for when the base key is longer than a digest (C94_dh_key_length_refuted); the length is right for keys of up to 40 bytes and for base keys no longer than a digest (C94_dh_key_length_partial).

### C95 MAC protection stays the same through an exchange

* Method: Inversion of the comparisons into the relation params_match; for two protected messages the decoders undo the encoders.
* Status: partial; file: `ProtMatchProperties.v`
* Theorems: `C95_exact`, `C95_pair`, `C95_not_strict`, `C95_not_strict_mac_refuted`, `C95_conf_refuted`, `C95_bare_refuted`
* Note: Exact in both modes. Refuted parts: the confirmation is not looked at, or with same_salt never passes (C95_conf_refuted); HMAC and KMAC never match, nor does a received PasswordBasedMac request (C95_bare_refuted); without strict two signature algorithms pass (C95_not_strict_mac_refuted).

### C96 Signature protection stays the same through an exchange

* Method: Inversion of the checks; the hash of each identifier by enumeration of the tables.
* Status: partial; file: `ProtMatchProperties.v`
* Theorems: `C96_exact`, `C96_consistent`, `C96_parameters_refuted`, `C96_first_cert_refuted`, `C96_prehash_refuted`
* Note: Exact; the chain builder is a parameter (C46 is about it). Refuted parts: RSA and PSS signatures are never consistent because of their parameters (C96_parameters_refuted); another message may start with a different certificate (C96_first_cert_refuted); pre-hashed algorithms raise an IndexError (C96_prehash_refuted).

### C97 Salts are read and protections modified as described

* Method: Inversion, with the decoders undoing the encoders; the refusal from C88.
* Status: proved; file: `ProtMatchProperties.v`
* Theorems: `C97_salt`, `C97_salt_exact`, `C97_modify_exact`, `C97_modified`

### C98 Hybrid verification accepts exactly what is signed with both keys

* Method: Induction over generalInfo gives the last entries of each type; the rest is inversion, with C92 for the signatures.
* Status: partial; file: `ProtHybProperties.v`
* Theorems: `C98_accepts`, `C98_one_key`, `C98_object`, `C98_object_any`, `C98_twice_refuted`, `C98_key_refuted`, `C98_must_refuted`
* Note: Exact, and exact about the message object. Refuted parts: a message verified through an alternative signature never verifies again (C98_twice_refuted); the public key argument has no effect unless the algorithm is composite (C98_key_refuted); must_be_catalyst_signed has no effect for composite algorithms (C98_must_refuted). The alternative key of a certificate (may_extract_alt_key_from_cert) and the composition of keys are parameters.

### C99 Hybrid protection verifies with the keys it was made with

* Method: The identifier made for each key fits it (as C91, also for RSASSA-PSS and composite keys); the entries appended are the last of their types.
* Status: partial; file: `ProtHybProperties.v`
* Theorems: `C99_signature`, `C99_signature_accepted`, `C99_bad`, `C99_certs`, `C99_catalyst`, `C99_catalyst_accepted`, `C99_certificate_refuted`, `C99_self_asserted_refuted`, `C99_bad_refuted`, `C99_composite_refuted`, `C99_again_refuted`
* Note: For all keys, with hybrid generalInfo entries absent before. Refuted parts: the certificate is not sent without a directory (C99_certificate_refuted); the alternative key is taken from the message itself whatever the certificate says (C99_self_asserted_refuted); bad_message_check leaves the primary signature valid (C99_bad_refuted); with a composite primary key the alternative signature is not looked at (C99_composite_refuted); protecting again gives a message that does not verify (C99_again_refuted).

### C100 Original messages of a request are verified

* Method: Induction over generalInfo and over the list of messages.
* Status: partial; file: `ProtHybProperties.v`
* Theorems: `C100_accepts`, `C100_missing`, `C100_fails`, `C100_failures_refuted`
* Note: Exact. Refuted part: failures other than a wrong signature or MAC are not reported as BadMessageCheck (C100_failures_refuted). Decoding of PKIMessages is a parameter.

### C101 Certificates are issued only for keys whose possession is shown

* Method: One inductive specification of what is issued (`entitled`, `answers`); exactness by inversion of each branch, lifted to messages by induction over the requests.
* Status: partial; file: `PopProperties.v`
* Theorems: `C101_single`, `C101_batch_partial`, `C101_server_partial`, `C101_server_single`, `C101_exact`, `C101_batch_refuted`
* Note: Proved for a single request and for the first of several, with an exact condition (C101_exact) and for everything the server answers (C101_server_partial). For the others of a message the signature looked at is the one of the first request; that this is wrong is C101_batch_refuted. The control checks (validate_cert_request_controls) and certificate building are parameters.

### C102 The proof of possession of a request is verified exactly

* Method: Inversion of each branch against `pop_ok`; the signatures through C92.
* Status: partial; file: `PopProperties.v`
* Theorems: `C102_first`, `C102_other_partial`, `C102_signature`, `C102_other_refuted`, `C102_cross_refuted`
* Note: Exact for the first request. For the others the signature of the first request is verified (C102_other_partial), so that a valid one is refused (C102_other_refuted); cross-certification requests are always refused (C102_cross_refuted).

### C103 An RA can replace the template but not the key of a request

* Method: `registered` is the first entry of its type, the only one, decoded completely; then case analysis of C101_exact.
* Status: partial; file: `PopProperties.v`
* Theorems: `C103_exact`, `C103_key`, `C103_no_proof`, `C103_in_force`, `C103_ignored_refuted`
* Note: Exact; the key is preserved in all cases; the alternative template is in force for signed and RA-verified requests. Refuted part: it is ignored for the other proofs and for generated keys (C103_ignored_refuted).

### C104 A message with several requests is answered completely or not at all

* Method: Induction over the list of requests; the identifiers through duplicate-freeness and the pigeonhole argument of `Permutation`.
* Status: partial; file: `PopProperties.v`
* Theorems: `C104_ids`, `C104_all`, `C104_fails`, `C104_profile`, `C104_server`, `C104_cr_refuted`, `C104_mixed_refuted`
* Note: Exact. Refuted parts: whether a request is for a generated key is decided from the first request, so requests that are answered alone fail together (C104_mixed_refuted); the lightweight profile is not enforced for cr (C104_cr_refuted).

### C105 raVerified is accepted from RAs only

* Method: Inversion; the refutations are runs of the server on a concrete environment and an equation for all messages.
* Status: partial; file: `PopProperties.v`
* Theorems: `C105_exact`, `C105_issued`, `C105_sender_refuted`, `C105_mac_refuted`, `C105_kem_refuted`
* Note: The check is exact. Refuted parts: it is not looked at who protected the message (C105_sender_refuted, C105_mac_refuted), and key updates protected with a KEM are not checked (C105_kem_refuted). Chain building and key usages are parameters.

### C106 A key update replaces the named certificate with a new key

* Method: Inversion; induction over the controls.
* Status: partial; file: `PopProperties.v`
* Theorems: `C106_exact`, `C106_controls`, `C106_issuer_refuted`, `C106_template_refuted`, `C106_kem_refuted`
* Note: Exact. Refuted parts: the issuer is compared with the second certificate of the message instead of the issuer of the old one (C106_issuer_refuted); the key rules of templates are not applied (C106_template_refuted); proofs other than signatures are refused (C106_kem_refuted).

### C107 Cross-certificates are CA certificates for a signed, complete request

* Method: Inversion, with the template transformation as a relation.
* Status: partial; file: `PopProperties.v`
* Theorems: `C107_exact`, `C107_usage`, `C107_ca_refuted`
* Note: Exact. Refuted part: a template that says it is no CA is certified as it is (C107_ca_refuted).

### C108 PKCS #10 requests get a certificate iff they are signed with their key

* Method: Inversion, with C92 for the signature.
* Status: partial; file: `PopProperties.v`
* Theorems: `C108_exact`, `C108_template_refuted`
* Note: Exact. Refuted part: the key rules of templates are not applied (C108_template_refuted).

### C109 Template, key and algorithm rules, and who can read the certificate

* Method: Inversion; the algorithm tables by exhaustive case analysis of the names that `sig_valid` allows.
* Status: partial; file: `PopProperties.v`
* Theorems: `C109_template`, `C109_algorithm`, `C109_encrypted`, `C109_plain`, `C109_signature`, `C109_fits`, `C109_pss_refuted`, `C109_rsa_refuted`, `C109_challenge_refuted`
* Note: Exact conditions. Refuted parts: requests signed with RSASSA-PSS are refused (C109_pss_refuted); RSA keys cannot use key encipherment (C109_rsa_refuted); challenge-response is answered with an encrypted certificate for key agreement keys (C109_challenge_refuted).

### C110 Controls of certificate requests are checked exactly

* Method: Each validator is inverted against its specification; `controls_ok` puts them together in the order of the code.
* Status: partial; file: `CtrlProperties.v`
* Theorems: `C110_exact`, `C110_text`, `C110_archive`, `C110_publication`, `C110_required_refuted`, `C110_twice_refuted`
* Note: Exact. Refuted parts: nothing is required when the field of the controls is absent (C110_required_refuted); archive options and publication information may be given more than once (C110_twice_refuted).

### C111 A one-time registration token is honoured at most once

* Method: Invariant of the mark of the token by induction over the requests of a message and over the history; certificates by an equation with the stateless model of C101.
* Status: partial; file: `CtrlProperties.v`
* Theorems: `C111_once`, `C111_mark`, `C111_entitled`, `C111_consumed_refuted`, `C111_cr_refuted`, `C111_needed_refuted`
* Note: At most once, with the right token, for all histories of ir and KEM-protected kur. Refuted parts: the token is used up by a request that is then refused (C111_consumed_refuted); a cr is accepted with any token, any number of times (C111_cr_refuted); no request needs a token (C111_needed_refuted).

### C112 UTF8Pairs are read in exactly one way and round-trip

* Method: Grammar as inductive relations; soundness by induction on the length, completeness by induction on the derivation; UTF-8 by arithmetic on the four forms.
* Status: partial; file: `PairProperties.v`
* Theorems: `C112_exact`, `C112_round`, `C112_quote`, `C112_utf8`, `C112_prepare`, `C112_prepared`, `C112_validate`, `C112_plain`, `C112_unquoted`, `C112_wide`, `C112_raw_refuted`
* Note: Exact, with UTF-8 and URL quoting modelled. Refuted part: texts that are not quoted as a whole (as in RFC 4211, and with encode=False) are decoded twice (C112_raw_refuted). str.isdigit is a parameter that knows the digits 2 and 3. Unquoting is specified exactly (C112_unquoted, C112_wide).

### C113 The delta certificate is had back from a paired (chameleon) certificate

* Method: `rebuild` is computed on what `build_paired` gives; the extensions by induction on the lists, with the merge as an intermediate form.
* Status: partial; file: `ChamProperties.v`
* Theorems: `C113_exact`, `C113_always`, `C113_any`, `C113_succeeds`, `C113_key`, `C113_built_key`, `C113_validate`, `C113_built_validates`, `C113_validated`, `C113_parameters_refuted`, `C113_trailing_refuted`, `C113_certificate`
* Note: Exact, for any certificates. Refuted parts: the parameters of a differing algorithm are lost (C113_parameters_refuted); the validation accepts descriptors with trailing data that cannot be rebuilt from (C113_trailing_refuted).

### C114 A paired request proves possession of both keys

* Method: The loop over the attributes is reduced to the last value of each type; permutations of the attributes by the uniqueness of the two types.
* Status: partial; file: `ChamProperties.v`
* Theorems: `C114_verify`, `C114_built`, `C114_bad`, `C114_sender`, `C114_one`, `C114_two_refuted`, `C114_signature`
* Note: Exact. Refuted part: of two delta requests the last is verified and issued, the first is looked up for revoked and duplicate keys (C114_two_refuted).

### C115 A paired certificate is issued only for two proven, different keys, and its delta can be had back

* Method: Inversion of the issuing, the extensions by induction on the shared types, then C113.
* Status: partial; file: `ChamProperties.v`
* Theorems: `C115_issued`, `C115_keys`, `C115_delta_key`, `C115_extensions`, `C115_asked`, `C115_unasked`, `C115_base_only`, `C115_critical`, `C115_rebuilds`, `C115_default`, `C115_descriptor`, `C115_hash_refuted`, `C115_one_part_refuted`, `C115_injected_refuted`
* Note: For all requests whose two parts have extensions. Refuted parts: another hash with an RSA key (C115_hash_refuted); extensions in one part only (C115_one_part_refuted); a descriptor in both parts of the request is issued and hides the real one (C115_injected_refuted). Exact also without extensions (C115_unasked) and with extensions in the base part only (C115_base_only).

### C116 EnvelopedData is opened exactly by whom it is for

* Method: Each check is inverted into the clause of the specification it decides; the libraries (AES, key wrap, RSA, key agreement, KEMs, DER) are a record of functions without assumptions.
* Status: partial; file: `EnvlProperties.v`
* Theorems: `C116_content`, `C116_password`, `C116_kem`, `C116_agreement`, `C116_key`, `C116_expected_password`, `C116_expected_kem`, `C116_expected_other`, `C116_ca`, `C116_named`, `C116_salt`, `C116_version_refuted`, `C116_index_refuted`, `C116_unverified_refuted`, `C116_kdf_refuted`
* Note: Exact for every function. Refuted parts: the version is not looked at (C116_version_refuted); with several recipients the first is used, whatever index is given (C116_index_refuted); without an expected type the protection is not verified (C116_unverified_refuted); accepted derivation functions that never open (C116_kdf_refuted).

### C117 EnvelopedData that is built is opened by its recipient

* Method: The builders are inverted and the laws of the libraries (decryption inverts encryption, both sides agree, codecs invert) give what C116 asks for.
* Status: partial; file: `EnvlProperties.v`
* Theorems: `C117_content`, `C117_password`, `C117_password_env`, `C117_transport`, `C117_agreement`, `C117_kem`, `C117_exchange`, `C117_named`, `C117_transport_form`, `C117_agreement_form`, `C117_kem_form`, `C117_kem_cert`, `C117_exchange_form`, `C117_kdf_refuted`, `C117_hkdf_refuted`, `C117_scheme_refuted`, `C117_mixed_refuted`, `C117_ciphertext_refuted`
* Note: Exact in the options. Refuted parts: the derivation function asked for is ignored (C117_kdf_refuted); HKDF with a password (C117_hkdf_refuted); another hash with X25519 (C117_scheme_refuted); issuer and serial number for a certificate with a key identifier (C117_mixed_refuted); a given ciphertext without its secret (C117_ciphertext_refuted).

### C118 A signature algorithm is accepted exactly for the keys it is for

* Method: The tables are checked against the lists of the specification by computation, once; a decision procedure for the specification is proved correct and equal to the function for all identifiers, known or not.
* Status: partial; file: `SdProperties.v`
* Theorems: `C118_answers`, `C118_exact`, `C118_hashes`, `C118_eddsa_refuted`, `C118_sha3_refuted`
* Note: Exact. Refuted parts: Ed448 is accepted for Ed25519 keys and the other way round (C118_eddsa_refuted); ECDSA with SHA-3 is refused (C118_sha3_refuted).

### C119 A signed key package yields its key exactly if it is signed by a trusted key generation authority

* Method: Each check is inverted into the clause it decides; the builder is inverted under the laws of the libraries. That the chain is signed link by link comes from the chain builder (C46).
* Status: partial; file: `SdProperties.v`
* Theorems: `C119_exact`, `C119_chain`, `C119_built`, `C119_built_ski`, `C119_built_digest`, `C119_built_attributes`, `C119_built_frame`, `C119_built_nothing`, `C119_built_bad`, `C119_keys_refuted`, `C119_attributes_refuted`, `C119_signer_refuted`, `C119_signers_refuted`, `C119_digest_refuted`
* Note: Exact, with the round trip of the builder. Refuted parts: several keys are built but never accepted (C119_keys_refuted); the signature does not cover the signed attributes (C119_attributes_refuted); the signer identifier is not compared (C119_signer_refuted); only the first signer is looked at (C119_signers_refuted); a wrong digest is an AttributeError (C119_digest_refuted).

### C120 A key generated by the CA is the key of the certificate that came with it

* Method: Composes C116 and C119: the two results are inverted in turn, and the certificate of the response is read off the message.
* Status: partial; file: `KgaProperties.v`
* Theorems: `C120_exact`, `C120_key`, `C120_password`, `C120_keys_refuted`, `C120_usage_refuted`
* Note: Exact, with the round trip for a password. Refuted parts: several keys need as many recipients, signers and digests (C120_keys_refuted); the usages of key transport and KEM certificates are not checked (C120_usage_refuted).

### C121 A catalyst certificate is accepted exactly if both its signatures are valid

* Method: The loop over the extensions is characterised by first and last occurrence, by induction on the list; the verification is then inverted into the two signatures. The round trip follows from the exact form of what is signed and the laws of the libraries.
* Status: partial; file: `CatProperties.v`
* Theorems: `C121_extensions`, `C121_none`, `C121_some`, `C121_malformed`, `C121_algorithm`, `C121_verify`, `C121_covers`, `C121_signed`, `C121_round_trip`, `C121_bad`, `C121_load`, `C121_issuer_refuted`, `C121_readers_refuted`, `C121_trailing_refuted`, `C121_algorithm_refuted`
* Note: Exact, with the round trip. Refuted parts: the alternative signature is verified with the key in the certificate itself, not that of the issuer (C121_issuer_refuted); the verification takes the last alternative key and load_catalyst_public_key the first (C121_readers_refuted), and they disagree about trailing data (C121_trailing_refuted); the algorithm demanded need not be that of the key (C121_algorithm_refuted).

### C122 A revocation list with an alternative signature is accepted exactly if both signatures are valid

* Method: The loop is characterised by induction on the extensions (what is found, what is kept, when it stops); the function is inverted on top of that. The object after the call is part of the result, so that the second verification can be stated.
* Status: partial; file: `CatProperties.v`
* Theorems: `C122_verify`, `C122_invalid`, `C122_signed`, `C122_round_trip`, `C122_plain`, `C122_extensions_refuted`, `C122_twice_refuted`, `C122_pss_refuted`
* Note: Exact, with the round trips. Refuted parts: an ordinary list with extensions is refused although no alternative signature is demanded (C122_extensions_refuted); a list that was verified cannot be verified again (C122_twice_refuted); with RSASSA-PSS the algorithm named is not that of the signature (C122_pss_refuted).

### C123 A Sun hybrid certificate is converted between its four forms without loss

* Method: Replacing the first extension of a type is a function on lists that commutes for different types and is idempotent; conversions are characterised by it, and the round trip follows from these laws. The form is that of the last occurrences, by induction on the list.
* Status: partial; file: `SunProperties.v`
* Theorems: `C123_key_extension`, `C123_signature_extension`, `C123_convert`, `C123_other_form`, `C123_form`, `C123_converted`, `C123_round_trip`, `C123_names`, `C123_contains`, `C123_has_extensions`, `C123_hash_checked_refuted`, `C123_contains_any_refuted`, `C123_converted_refuted`
* Note: Exact, with the round trip between all forms. Refuted parts: converting to a value does not check the hash of what is at the location (C123_hash_checked_refuted); only the first certificate with a signature by value is considered (C123_contains_any_refuted); with two extensions of a type the certificate does not have the form asked for after the conversion (C123_converted_refuted).

### C124 A Sun hybrid certificate is accepted exactly if it is signed twice and its key is the one referred to

* Method: Each validation is inverted into a relation over first or last extensions; issuing is characterised by one relation for both entry points, from which acceptance follows with the round trip of C123 and the laws of the signatures.
* Status: partial; file: `SunProperties.v`
* Theorems: `C124_key`, `C124_signature`, `C124_signature_twice`, `C124_verify`, `C124_template`, `C124_request`, `C124_request_default_refuted`, `C124_issued_verified`, `C124_bad_refused`, `C124_template_verified_refuted`
* Note: Exact, with the round trip of issuing and verifying. Refuted parts: a certificate issued from a template names its signature algorithm with "sha256" whatever hash it is signed with (C124_template_verified_refuted); a request without the attribute for the hash of the key is never answered (C124_request_default_refuted); a validated certificate cannot be validated again (C124_signature_twice).

### C125 The alternative key of a certificate is taken from the first source it has

* Method: The function is inverted case by case into an inductive relation with one constructor for each source.
* Status: partial; file: `SunProperties.v`
* Theorems: `C125_key`, `C125_none`, `C125_sun_key`, `C125_reference_checked_refuted`, `C125_access_ignored_refuted`, `C125_malformed`
* Note: Exact. Refuted parts: the hash of a key by reference is not compared (C125_reference_checked_refuted); an unreadable subjectInfoAccess extension hides the key (C125_access_ignored_refuted).

### C126 A related certificate is the one whose digest the extension holds

* Method: The functions are inverted into relations over the first extension of the type, the hash and the digest; uniqueness follows from the absence of collisions, the search by induction on the list.
* Status: partial; file: `RelProperties.v`
* Theorems: `C126_validated`, `C126_unique`, `C126_prepared`, `C126_other_hash_refuted`, `C126_other_hash`, `C126_found`, `C126_not_found`, `C126_accepted_found`, `C126_found_accepted_refuted`
* Note: Exact, with uniqueness and the round trip for equal hashes. Refuted parts: the extension is made with the hash of the related certificate and validated with that of the certificate that has it (C126_other_hash_refuted; for which, C126_other_hash); a certificate found in a list need not be accepted, the usages are not looked at (C126_found_accepted_refuted).

### C127 A request for a related certificate proves possession of its key, now

* Method: The validation is inverted into a relation between the time, the request and the certificates at the location; the round trip and the refusals follow from it and from the laws of the codecs and the signatures.
* Status: partial; file: `RelProperties.v`
* Theorems: `C127_proved`, `C127_request`, `C127_time_zero_refuted`, `C127_round_trip`, `C127_time`, `C127_refused`, `C127_bad_signature`, `C127_copied`, `C127_moved`, `C127_location_refuted`
* Note: Exact, with the round trip. Refuted parts: the location is not signed, so that it can be replaced (C127_location_refuted, C127_moved); a request time of 0 is replaced by the current time (C127_time_zero_refuted). The proof can be copied into another certificate request (C127_copied).

### C128 A certificate request is bound to a related end entity certificate with a trusted chain

* Method: The function is inverted step by step; the chain that is checked is a relation with a case for each source. That the server check fails is by cases on what can be handed in.
* Status: partial; file: `RelProperties.v`
* Theorems: `C128_accepted`, `C128_other_chain_refuted`, `C128_no_chain`, `C128_server_refuted`, `C128_issued`
* Note: Exact. Refuted parts: a chain that is given is checked although it need not contain the certificate that is returned (C128_other_chain_refuted); the check of the server fails for everything that can be handed in (C128_server_refuted). Without OpenSSL only the last certificate is looked at (C128_no_chain). Building a chain is that of C46.

### C129 Certificate discovery finds the certificate that the descriptor names

* Method: Inversion of each function; the first access description by induction on the list.
* Status: partial; file: `RelProperties.v`
* Theorems: `C129_descriptor`, `C129_prepared_fields`, `C129_prepared`, `C129_algorithms`, `C129_prepared_fits`, `C129_applies`, `C129_discovered`, `C129_discovered_fits_refuted`, `C129_validated_refuted`
* Note: Exact for extracting, preparing, the algorithms and finding. Refuted parts: what is found need not have the algorithms of the descriptor (C129_discovered_fits_refuted); validate_cert_discovery_cert always fails (C129_validated_refuted).

### C130 Names are compared as the mode says

* Method: Each mode is characterised by a relation between the lists of RDNs; the encoding is assumed to be DER: the order in a SET OF does not count. contains_seq by induction on both lists.
* Status: partial; file: `CmpProperties.v`
* Theorems: `C130_modes`, `C130_documented_mode_refuted`, `C130_without_tag`, `C130_strict`, `C130_contains`, `C130_contains_seq`, `C130_documented_refuted`, `C130_order`, `C130_find`, `C130_null`, `C130_params`, `C130_params_refuted`
* Note: Exact for each mode. Refuted parts: the documentation says the reverse of what contains checks (C130_documented_refuted) and writes the modes in capitals, which are refused (C130_documented_mode_refuted); NULL parameters that were decoded count as absent even if they are not allowed to (C130_params_refuted).

### C131 A template equals a certificate iff the compared fields agree

* Method: Each comparison of a field is an equivalence with a clause of the specification; the fields to be compared are those named in the texts, cut at the commas.
* Status: partial; file: `CmpProperties.v`
* Theorems: `C131_equal`, `C131_different`, `C131_empty`, `C131_precedence`, `C131_fewer`, `C131_strict`, `C131_extensions_refuted`, `C131_blank_refuted`, `C131_key_refuted`, `C131_key_error`
* Note: Exact. Refuted parts: the values of extensions are not compared (C131_extensions_refuted); a field after a comma and a blank is not compared (C131_blank_refuted); an empty key with another algorithm raises TypeError (C131_key_refuted).

### C132 A template selects the first certificate of a list that it fits

* Method: Induction on the list, over C131.
* Status: partial; file: `CmpProperties.v`
* Theorems: `C132_found`, `C132_fits`, `C132_by_serial`, `C132_anything`, `C132_subject_key`, `C132_template`, `C132_no_key`, `C132_no_subject`, `C132_granted`, `C132_granted_refuted`
* Note: Exact. Refuted part: the status grantedWithMods is accepted without modifications (C132_granted_refuted). An empty template would select the first certificate (C132_anything); it is refused before (C134).

### C133 A certificate is compared with a request or a key in all they have

* Method: Inversion of the two functions.
* Status: partial; file: `CmpProperties.v`
* Theorems: `C133_request`, `C133_no_more`, `C133_attributes`, `C133_attributes_refuted`, `C133_key`
* Note: Exact. Refuted part: a request with another attribute raises NotImplementedError (C133_attributes_refuted, C133_attributes).

### C134 A revocation request revokes the certificate it identifies

* Method: Inversion, over C132; the reasons are a finite table with distinct numbers.
* Status: partial; file: `CmpProperties.v`
* Theorems: `C134_accepted`, `C134_identified`, `C134_unique`, `C134_once`, `C134_revive`, `C134_unchecked`, `C134_version`, `C134_version_refuted`, `C134_response`, `C134_no_profile`, `C134_no_profile_refuted`
* Note: Exact, with uniqueness and one step of history each way. Refuted parts: an entry that names the version cannot revoke a v3 certificate (C134_version_refuted, C134_version); without the lightweight profile nothing is answered (C134_no_profile_refuted, C134_no_profile). The histories of the mock CA are those of C17 and C48.

### C135 A migration chain leads from issuer to issuer

* Method: One step of the loop is characterised by cases; soundness, the end and completeness by induction on the list.
* Status: partial; file: `MigProperties.v`
* Theorems: `C135_chain`, `C135_ends`, `C135_complete`, `C135_order_refuted`, `C135_self_signed_refuted`, `C135_unreadable`, `C135_unreadable_refuted`
* Note: Sound, and complete for ordered lists. Refuted parts: the list is looked at once, so that in another order the chain ends early (C135_order_refuted); a certificate without an issuer in the list passes for self-signed (C135_self_signed_refuted); a key that cannot be read ends the search (C135_unreadable_refuted, C135_unreadable).

### C136 The issuer and the chain of a Sun hybrid certificate

* Method: Induction on the list; the chain by C46.
* Status: partial; file: `MigProperties.v`
* Theorems: `C136_issuer`, `C136_issuer_refuted`, `C136_chain`, `C136_members`, `C136_ordinary_refuted`
* Note: Exact. Refuted parts: a key that cannot be read before the issuer ends the search (C136_issuer_refuted); a certificate that is no Sun hybrid certificate, such as the root, is never in the chain (C136_ordinary_refuted).

### C137 The kind of a hybrid certificate, and hybrid signatures with two certificates

* Method: By cases.
* Status: partial; file: `MigProperties.v`
* Theorems: `C137_kind`, `C137_two`, `C137_catalyst`, `C137_catalyst_refuted`, `C137_own_key_refuted`
* Note: Exact. Refuted parts: the catalyst key cannot stand in for the other certificate (C137_catalyst_refuted, C137_catalyst); the key of the certificate itself is looked at in place of its signature algorithm (C137_own_key_refuted).

### C138 Which entry of a general response is checked

* Method: By induction on the entries; the size by unfolding each validator.
* Status: partial; file: `GenProperties.v`
* Theorems: `C138_first`, `C138_kind`, `C138_size_ignored`, `C138_size_refuted`, `C138_ca_certs_silent`
* Note: Exact. Refuted parts: a wrong number of entries is only logged (C138_size_refuted, C138_size_ignored); for the CA certificates a wrong size, or a size given as a string, makes the check pass without looking at the answer (C138_ca_certs_silent).

### C139 CA certificates in a general response

* Method: Inversion of each step of the validator.
* Status: partial; file: `GenProperties.v`
* Theorems: `C139_exact`, `C139_absent_refuted`, `C139_trailing_refuted`
* Note: Exact. Refuted parts: an answer without certificates is refused although it may be absent (C139_absent_refuted); bytes after the certificates are accepted (C139_trailing_refuted).

### C140 Root CA certificate update

* Method: Inversion of each step of the validator.
* Status: partial; file: `GenProperties.v`
* Theorems: `C140_exact`, `C140_without_old`, `C140_unsigned_refuted`, `C140_other_key_refuted`
* Note: Exact. Refuted parts: without the old certificate no signature at all is checked (C140_without_old, C140_unsigned_refuted); newWithOld may hold another key than newWithNew (C140_other_key_refuted).

### C141 Certificate request template

* Method: Inversion of each step of the validator.
* Status: partial; file: `GenProperties.v`
* Theorems: `C141_exact`, `C141_optional_refuted`, `C141_edwards_refuted`
* Note: Exact. Refuted parts: the template and its key specification cannot be left out although the arguments say so (C141_optional_refuted); Ed25519 and Ed448 are accepted exactly when the parameters are present, against RFC 8410 (C141_edwards_refuted).

### C142 CRL answers

* Method: Inversion; the list by induction.
* Status: proved; file: `GenProperties.v`
* Theorems: `C142_update`, `C142_current`
* Note: Exact characterisations, decoding and the checks of a single CRL as parameters.

### C143 Answers with key types, algorithms, languages and encryption certificates

* Method: Inversion; the list of algorithms by induction.
* Status: proved; file: `GenProperties.v`
* Theorems: `C143_signing`, `C143_encryption`, `C143_symmetric`, `C143_language`, `C143_passphrase`, `C143_encryption_cert`
* Note: Exact characterisations. Note: an empty list of signing key types is accepted.

### C144 KEM ciphertext exchange in general messages

* Method: Inversion of both sides; agreement from the round trip of the codec and of the KEM.
* Status: partial; file: `GenProperties.v`
* Theorems: `C144_client`, `C144_server`, `C144_agree`, `C144_algorithm_refuted`, `C144_value_refuted`
* Note: Exact, and agreement proved for every correct KEM. Refuted parts: the algorithm beside the ciphertext is never looked at (C144_algorithm_refuted); a request with a value, which must be absent, is answered (C144_value_refuted).

### C145 What the Mock CA answers to general messages

* Method: Inversion per type; induction on the entries.
* Status: partial; file: `GenProperties.v`
* Theorems: `C145_answers`, `C145_exact`, `C145_number`, `C145_refused`, `C145_implemented_refuted`
* Note: Refuted part: the code that answers key pair parameter requests and the implicit confirmation is never reached (C145_implemented_refuted).

### C146 The state of the general message handler

* Method: Invariant of one entry, then induction on the entries.
* Status: partial; file: `GenProperties.v`
* Theorems: `C146_state`, `C146_atomic`, `C146_rollback_refuted`, `C146_remove`, `C146_extra_certs`
* Note: Refuted part: without Lightweight CMP a refused message may leave a passphrase behind (C146_rollback_refuted).

### C147 The Mock CA's answers pass the checks of the client

* Method: Inversion of the handler, then the exact characterisation of the validator.
* Status: proved; file: `GenProperties.v`
* Theorems: `C147_template`, `C147_language`, `C147_symmetric`, `C147_signing`, `C147_encryption`, `C147_passphrase`, `C147_crl`, `C147_ca_certs`, `C147_root_update`, `C147_kem`
* Note: The template passes iff the configured RSA length is at least 2048 (C147_template).

### C148 CRL update retrieval by the Mock CA

* Method: Induction on the list; removal of duplicates by induction.
* Status: proved; file: `GenProperties.v`
* Theorems: `C148_exact`
* Note: The comparison of the distribution point with the CA is a parameter.

### C149 The answer to a challenge is its number

* Method: Inversion of the construction, then the exact characterisation of the end entity.
* Status: partial; file: `ChlProperties.v`
* Theorems: `C149_version_2`, `C149_version_3`, `C149_mock`, `C149_kem_refuted`
* Note: RSA and key agreement in version 2, every key in version 3. Refuted part: a KEM key in version 2 is never answered because the ciphertext is not handed over (C149_kem_refuted). Hybrid KEM keys are not modelled.

### C150 Which challenges an end entity answers

* Method: Inversion of each step.
* Status: proved; file: `ChlProperties.v`
* Theorems: `C150_client`, `C150_version`, `C150_recipient`
* Note: Exact, decryption and codecs as parameters.

### C151 Contents of a challenge

* Method: Inversion of the construction; the four bytes by division.
* Status: partial; file: `ChlProperties.v`
* Theorems: `C151_witness`, `C151_no_witness`, `C151_checked_refuted`, `C151_plain`, `C151_encrypted`, `C151_number`
* Note: Refuted part: the end entity never checks the witness (C151_checked_refuted). Note: the CA certificate is not used for the name in version 2 (C151_plain).

### C152 The open challenges of the Mock CA

* Method: Inversion of the handler; the table by its members.
* Status: partial; file: `ChlProperties.v`
* Theorems: `C152_open`, `C152_key`, `C152_key_choice`, `C152_concurrent_refuted`
* Note: Refuted part: while a challenge is open no challenge of version 3 is sent, because the table of challenges is handed over as the value of the challenge (C152_concurrent_refuted). The transitions of the whole Mock CA (C01 and following) take the outcome of this step as a parameter.

### C153 The out-of-band hash of a CA certificate

* Method: Inversion of each step.
* Status: partial; file: `ChlProperties.v`
* Theorems: `C153_validated`, `C153_prepared`, `C153_accepted_refuted`
* Note: Exact for the code. Refuted part: the hash compared is that of the OOBCertHash itself, so a prepared hash is never accepted (C153_accepted_refuted).

### C154 Which responses of a CA pass the check of the body

* Method: Inversion of each step, with the message threaded through; the effects by induction on the list of responses.
* Status: partial; file: `RspProperties.v`
* Theorems: `C154_accepted`, `C154_repeatable_refuted`, `C154_effect`, `C154_ca_pubs_refuted`, `C154_ir_as_cr_refuted`, `C154_status_refuted`
* Note: Exact. Refuted parts: the check takes the certificate out of the message, so it cannot be repeated and the certificate cannot be read afterwards (C154_repeatable_refuted); caPubs are accepted in a cp and after an ir used as cr (C154_ca_pubs_refuted, C154_ir_as_cr_refuted); the status is always that of the first response (C154_status_refuted). The effect of reading an alternative of a pyasn1 Choice is an assumption of the model.

### C155 The key pair, the certificate and caPubs of a response

* Method: Inversion of each step, with the message threaded through.
* Status: partial; file: `RspProperties.v`
* Theorems: `C155_structure`, `C155_private_key`, `C155_encrypted`, `C155_certificate`, `C155_certificate_kept`, `C155_encrypted_lost_refuted`, `C155_ca_pubs`, `C155_structure_effect`, `C155_structure_drops_refuted`
* Note: Exact. Refuted part: the check of the structure drops a plain certificate (C155_structure_drops_refuted), and asking for the certificate of a response with an encrypted one loses it (C155_encrypted_lost_refuted). Note: caPubs are checked with the certificate of the first response whatever the index (C155_ca_pubs).

### C156 Cross certification responses and the confirmation of the CA

* Method: Inversion of each step.
* Status: partial; file: `RspProperties.v`
* Theorems: `C156_cross`, `C156_confirmation`, `C156_confirm_cross_refuted`
* Note: Exact; the comparison of protection algorithms is that of the properties on protection and a parameter here. Refuted part: a confirmation after a ccp is always refused (C156_confirm_cross_refuted).

### C157 Revocation is checked before a hybrid certificate is issued

* Method: Inversion of each step, with the six names is_hybrid_cert can return.
* Status: partial; file: `HyhProperties.v`
* Theorems: `C157_accepted`, `C157_revoked`, `C157_unchecked_refuted`, `C157_names_refuted`, `C157_delta_key_refuted`, `C157_updated_refuted`, `C157_both_refuted`
* Note: The exact condition is proved (C157_accepted). Refuted parts: catalyst and composite certificates are never checked (C157_unchecked_refuted), related certificates and certificate discovery are always refused because the kinds are misspelt (C157_names_refuted), the answer for the delta key is dropped (C157_delta_key_refuted), updated Sun certificates pass (C157_updated_refuted), and the argument used_both_certs has no effect (C157_both_refuted).

### C158 Revocation of chameleon certificates and of signers of requests with several signatures

* Method: Inversion of each step.
* Status: partial; file: `HyhProperties.v`
* Theorems: `C158_accepted`, `C158_refused`, `C158_delta_key`, `C158_delta_key_refused`, `C158_request_refuted`
* Note: Exact. Refuted part: in a request with several signatures only a chameleon certificate is checked (C158_request_refuted).

### C159 Making and publishing certificates of the Sun hybrid scheme

* Method: Case analysis of the builder; the dictionaries as association lists with the set lemma.
* Status: partial; file: `HyhProperties.v`
* Theorems: `C159_made`, `C159_step`, `C159_success`, `C159_kem_refuted`, `C159_bad_signature_refuted`, `C159_locations_refuted`
* Note: Exact; the builders of certificates are parameters. Refuted parts: a key to encrypt is not possible in a cr or kur (C159_kem_refuted), a bad signature is not made for it (C159_bad_signature_refuted), and the locations are not used for a CSR (C159_locations_refuted).

### C160 Protection of responses and serial numbers in the Sun hybrid scheme

* Method: Induction on the number of rounds that are left; C160_traditional compares two libraries that differ only for both keys.
* Status: partial; file: `HyhProperties.v`
* Theorems: `C160_mac`, `C160_signature`, `C160_traditional`, `C160_serial`, `C160_serial_total`, `C160_unique_refuted`
* Note: Exact. Refuted part: after a hundred numbers that are in use the last one is taken (C160_unique_refuted), and the entry of the other certificate is replaced.

### C161 Every request for the Sun hybrid scheme is answered and recorded

* Method: Composition of the properties above.
* Status: partial; file: `HyhProperties.v`
* Theorems: `C161_issued`, `C161_answers`, `C161_failed`, `C161_revoked`, `C161_confirmation`, `C161_revocation`, `C161_unprotected_refuted`, `C161_kinds_refuted`, `C161_kem_refuted`, `C161_published_refuted`
* Note: Exact for requests that pass. Refuted parts: requests without protection, with certain signers and for keys to encrypt in a cr or kur are not answered (C161_unprotected_refuted, C161_kinds_refuted, C161_kem_refuted), and a certificate stays published when its response cannot be protected (C161_published_refuted). The effects of the handlers of certConf and rr are those of the properties on the Mock CA.

### C162 The extensions of a new certificate

* Method: Filtering the result by type; induction over the lists of extensions.
* Status: partial; file: `XtsProperties.v`
* Theorems: `C162_accepted`, `C162_looked_at`, `C162_others`, `C162_override_refuted`, `C162_dropped_refuted`
* Note: The acceptance and the result are exact (C162_accepted, C162_looked_at, C162_others). Refuted parts: the extension of the request wins over that of the CA, against the documentation (C162_override_refuted), and extensions of the request of other types are dropped without an error (C162_dropped_refuted). The checks of single extensions are parameters.

### C163 Which cross-signed certificates pass

* Method: Inversion of each step; two libraries that differ only in the field that is not looked at.
* Status: partial; file: `XtsProperties.v`
* Theorems: `C163_accepted`, `C163_ca_refuted`, `C163_aki_refuted`
* Note: Exact. Refuted parts: the field cA is never looked at (C163_ca_refuted), and the authority key identifier may be any (C163_aki_refuted). That a decoded field with a default has a value, and that a pyasn1 structure is not equal to bytes, are assumptions of the model.

### C164 Passwords of a fixed size

* Method: The n-th byte of a repeated list by induction and the arithmetic of remainders.
* Status: partial; file: `XtsProperties.v`
* Theorems: `C164_password`, `C164_expand`, `C164_double_refuted`, `C164_cut_refuted`
* Note: Exact for passwords that are byte strings (C164_password, C164_expand). Refuted part: different passwords do not give different keys (C164_double_refuted, C164_cut_refuted). Passwords that are text, which are repeated before hexadecimal notation is decoded, are not modelled.

### C165 Recipient infos for a key or a password

* Method: Case analysis over the key; inversion of each step.
* Status: partial; file: `RcpProperties.v`
* Theorems: `C165_kind`, `C165_unwraps`, `C165_made`, `C165_refused`, `C165_unsupported_refuted`, `C165_password_refuted`, `C165_parse`
* Note: Exact (C165_made, C165_kind, C165_unwraps, C165_refused). Refuted parts: a key of an unsupported type is accepted and not used if there is a password (C165_unsupported_refuted); a password beside a supported key has no effect (C165_password_refuted). That the single builders wrap the key they are given is a hypothesis; it is the subject of the properties about EnvelopedData.

### C166 The encrypted key of a proof of possession

* Method: Inversion of each step; a library in which wrapping is transparent for the refutation.
* Status: partial; file: `RcpProperties.v`
* Theorems: `C166_opens`, `C166_key`, `C166_option`, `C166_rid`, `C166_own_rid`, `C166_given_partial`, `C166_given_refuted`, `C166_version_refuted`, `C166_version`, `C166_given_kept`, `C166_no_certificate`
* Note: Proved for recipient infos that are made by the call (C166_opens, C166_key, C166_rid, C166_own_rid, C166_option) and for those of the caller with their key (C166_given_partial). Refuted parts: with a recipient info of the caller and no key the content is encrypted with a new random key that no recipient has (C166_given_refuted); the version is 0 for KEM and password recipient infos, where RFC 5652 asks for 3 (C166_version_refuted).

### C167 Which signed PKIMessages pass

* Method: Inversion of each step; two lemmas that say exactly when the checks of sender and senderKID pass.
* Status: partial; file: `SgpProperties.v`
* Theorems: `C167_accepted`, `C167_first`, `C167_position`, `C167_pss_refuted`, `C167_sender_refuted`
* Note: Exact for messages with a signature algorithm (C167_accepted, C167_first, C167_position). Refuted parts: messages signed with RSASSA-PSS, which is in the table of algorithms, are refused although their protection verifies, because the search for the certificate uses the other padding (C167_pss_refuted); with the default settings the sender may be any name (C167_sender_refuted). The verifications of signatures and the check of the field protectionAlg are parameters.

## 5. Which code is modelled

Collected from the citations in the model files: file, number of its lines covered by a cited definition, symbols.

* `mock_ca/ca_handler.py` (413 of 1662): CAHandler, CAHandler._build_body_relevant_error, CAHandler._check_for_compromised_key, CAHandler._check_is_not_confirmed, CAHandler.process_cert_conf, CAHandler.process_genm, CAHandler.process_normal_request, CAHandler.verify_protection, _after_request, _build_error_from_exception, _contains_challenge, _get_serial_number, handle_issuing, process_sun_hybrid
* `mock_ca/cert_conf_handler.py` (209 of 419): CertConfHandler, CertConfHandler._confirm_cert, CertConfHandler._may_add_stfl_confirmed_cert, CertConfHandler._verify_protection, CertConfHandler.process_cert_conf, CertConfState, CertConfState.add_confirmed_cert, CertConfState.add_request, CertConfState.add_response, CertConfState.is_not_confirmed, CertConfState.remove_request, CertConfState.validate_nonces
* `mock_ca/cert_req_handler.py` (453 of 729): CertReqHandler, CertReqHandler.check_cert_is_updated, CertReqHandler.check_if_used, CertReqHandler.check_same_key_cert_request, CertReqHandler.check_signer_is_a_issued_cert, CertReqHandler.handle_cross_cert_req, CertReqHandler.is_certificate_in_list, CertReqHandler.process_after_request, CertReqHandler.process_cert_request, CertReqHandler.process_cr, CertReqHandler.process_ir, CertReqHandler.process_kur, CertReqHandler.process_p10cr, CertReqHandler.validate_header, process_cert_request, process_cr
* `mock_ca/challenge_handler.py` (60 of 176): ChallengeHandler, ChallengeHandler._process_challenge, ChallengeHandler._process_popdecr, ChallengeHandler.challenge
* `mock_ca/db_config_vars.py` (25 of 150): CertConfConfigVars
* `mock_ca/hybrid_handler.py` (258 of 445): _add_to_state, is_chameleon_cert, is_delta_key_revoked, is_revoked, is_revoked_for_issuing, is_revoked_for_request, process_request, sign_response
* `mock_ca/mock_fun.py` (1110 of 1580): CertDBEntry, CertRevStateDB, CertRevStateDB._check_ocps_request_cert_status, CertRevStateDB.add_compromised_key, CertRevStateDB.add_rev_entry, CertRevStateDB.add_updated_cert, CertRevStateDB.build, CertRevStateDB.check_request_for_compromised_key, CertRevStateDB.get_crl_response, CertRevStateDB.get_ocsp_response, CertStateEnum, CertificateDB, CertificateDB._get_cert_by_digest, CertificateDB._get_certs_by_state, CertificateDB._process_rev_cert, CertificateDB._process_update_cert, CertificateDB.add_cert, CertificateDB.change_cert_state, CertificateDB.get_cert, CertificateDB.get_cert_state, CertificateDB.get_current_crl, CertificateDB.get_ocsp_response, CertificateDB.get_updated_history, CertificateDB.issued_certs, CertificateDB.not_confirmed_certs, CertificateDB.revoked_certs, CertificateDB.updated_certs, KEMSharedSecretList, KEMSharedSecretList.add_shared_secret, KEMSharedSecretList.get_shared_secret_object, KEMSharedSecretList.may_update_state, KEMSharedSecretList.update_shared_secret_state, KEMSharedSecretList.verify_pkimessage_protection, KEMSharedSharedState, KeySecurityChecker, KeySecurityChecker._check_contains_pub_key, KeySecurityChecker._compare_pub_keys, KeySecurityChecker.check_cert_status, KeySecurityChecker.contains_pub_key, MockCAState, MockCAState.add_certs, MockCAState.add_may_update_cert, MockCAState.add_tx_id, MockCAState.contains_pub_key, MockCAState.remove_tx_id, MockCAState.store_transaction_certificate, PQStatefulSigKeyConfig, RevokedEntry, RevokedEntryList, RevokedEntryList._contains, RevokedEntryList.add_entry, RevokedEntryList.build, RevokedEntryList.certs, RevokedEntryList.compromised_keys, RevokedEntryList.contains_hash, RevokedEntryList.contains_key, RevokedEntryList.get_by_hash, RevokedEntryList.get_cert_by_serial_number, RevokedEntryList.is_revoked, RevokedEntryList.remove, RevokedEntryList.remove_by_hash, RevokedEntryList.serial_numbers, UpdateCertDB, UpdateCertDB._for_cert_conf, UpdateCertDB._for_kur, UpdateCertDB._for_rr, UpdateCertDB.build_from_entries, UpdateCertDB.is_updated, UpdateCertDB.validate_is_updated
* `mock_ca/nested_handler.py` (190 of 324): NestedHandler, NestedHandler._check_nonces, NestedHandler._process_added_protection_request, NestedHandler.process_batched_request, NestedHandler.process_nested_request
* `mock_ca/operation_dbs.py` (23 of 523): StatefulSigKeyState.add_used_index, StatefulSigState, StatefulSigState.add_state, StatefulSigState.get_state, SunHybridState
* `mock_ca/prot_handler.py` (433 of 1016): ProtectionHandler, ProtectionHandler.check_correct_prot_type, ProtectionHandler.check_signer_is_trusted, ProtectionHandler.validate_protection, ProtectionHandler.validate_signature_protection, ProtectionHandler.validate_signer_for_ccr, ProtectionHandler.validate_stfl_signature_protection, ProtectionHandler.verify_added_protection, ProtectionHandler.verify_inner_batch_pkimessage, ProtectionHandler.verify_nested_protection, get_same_mac_protection
* `mock_ca/rev_handler.py` (226 of 455): RevocationHandler, RevocationHandler._handle_revive_request, RevocationHandler._handle_self_revive_request, RevocationHandler.is_not_allowed_to_request, RevocationHandler.is_revoked, RevocationHandler.process_revocation_request, RevocationHandler.verify_protection, _build_rp_error_response
* `mock_ca/stfl_validator.py` (141 of 237): STFLPKIMessageValidator._get_popo_sig, STFLPKIMessageValidator.add_pq_stateful_pki_message, STFLPKIMessageValidator.process_stfl_after_request, STFLPKIMessageValidator.validate_pq_stateful_pki_message
* `pq_logic/combined_factory.py` (438 of 1046): CombinedKeyFactory._decode_composite_kem, CombinedKeyFactory._load_composite_kem_from_private_bytes, CombinedKeyFactory._load_composite_kem_public_key, CombinedKeyFactory._load_composite_sig_from_private_bytes, CombinedKeyFactory._load_composite_sig_from_public_bytes, CombinedKeyFactory._load_composite_sig_key, CombinedKeyFactory._load_hybrid_key_from_spki, CombinedKeyFactory._load_pq_key, CombinedKeyFactory._load_trad_composite_private_key, CombinedKeyFactory._load_trad_raw_key, CombinedKeyFactory._try_load_ec_private_from_asn1, CombinedKeyFactory.get_pq_and_trad_name_form_hybrid_name, CombinedKeyFactory.load_private_key_from_one_asym_key, CombinedKeyFactory.load_public_key_from_spki, load_private_key_from_one_asym_key
* `pq_logic/fips/_fips_utils.py` (55 of 111): XOFHash, XOFHash._finalize, _compute_hash, _compute_shake
* `pq_logic/fips/fips203.py` (563 of 687): ML_KEM.__init__, ML_KEM.best_case_multiply, ML_KEM.bits_to_bytes, ML_KEM.byte_decode, ML_KEM.byte_encode, ML_KEM.bytes_to_bits, ML_KEM.compress, ML_KEM.decaps_internal, ML_KEM.decompress, ML_KEM.encaps_internal, ML_KEM.get_public_key, ML_KEM.h, ML_KEM.k_pke_decrypt, ML_KEM.k_pke_encrypt, ML_KEM.k_pke_keygen, ML_KEM.keygen_internal, ML_KEM.multiply_ntts, ML_KEM.ntt, ML_KEM.ntt_inverse, ML_KEM.poly_add, ML_KEM.poly_sub, ML_KEM.sample_ntt, ML_KEM.sample_poly_cbd, ML_KEM_PARAM, ML_KEM_ZETA_MUL, ML_KEM_ZETA_NTT
* `pq_logic/fips/fips204.py` (999 of 1218): ML_DSA.add, ML_DSA.bit_pack, ML_DSA.bit_unpack, ML_DSA.bitrev8, ML_DSA.bits_to_bytes, ML_DSA.bits_to_integer, ML_DSA.bytes_to_bits, ML_DSA.coeff_from_half_byte, ML_DSA.coeff_from_three_bytes, ML_DSA.decompose, ML_DSA.expand_a, ML_DSA.expand_mask, ML_DSA.expand_s, ML_DSA.h, ML_DSA.hash_ml_dsa_sign, ML_DSA.hash_ml_dsa_verify, ML_DSA.high_bits, ML_DSA.hint_bit_pack, ML_DSA.hint_bit_unpack, ML_DSA.inf_norm, ML_DSA.integer_to_bits, ML_DSA.integer_to_bytes, ML_DSA.keygen_internal, ML_DSA.low_bits, ML_DSA.make_hint, ML_DSA.matrix_vector_ntt, ML_DSA.modpm, ML_DSA.mul_ntt, ML_DSA.neg, ML_DSA.neq, ML_DSA.ntt, ML_DSA.ntt_inverse, ML_DSA.pk_decode, ML_DSA.pk_encode, ML_DSA.power2round, ML_DSA.rej_bounded_poly, ML_DSA.rej_ntt_poly, ML_DSA.sample_in_ball, ML_DSA.sig_decode, ML_DSA.sig_encode, ML_DSA.sign, ML_DSA.sign_internal, ML_DSA.simple_bit_pack, ML_DSA.simple_bit_unpack, ML_DSA.sk_decode, ML_DSA.sk_encode, ML_DSA.sub, ML_DSA.use_hint, ML_DSA.verify, ML_DSA.verify_internal, ML_DSA.w1_encode, ML_DSA.weight, ML_DSA_PARAM, ML_DSA_Q, ML_DSA_ZETAS
* `pq_logic/fips/fips205.py` (678 of 893): ADRS.__init__, ADRS.adrsc, ADRS.get_key_pair_address, ADRS.get_tree_index, ADRS.set_chain_address, ADRS.set_hash_address, ADRS.set_key_pair_address, ADRS.set_layer_address, ADRS.set_tree_address, ADRS.set_tree_height, ADRS.set_tree_index, ADRS.set_type_and_clear, SLH_DSA.__init__, SLH_DSA.base_2b, SLH_DSA.chain, SLH_DSA.fors_node, SLH_DSA.fors_pk_from_sig, SLH_DSA.fors_sign, SLH_DSA.fors_sk_gen, SLH_DSA.hash_ml_dsa_verify, SLH_DSA.hash_slh_sign, SLH_DSA.hmac, SLH_DSA.ht_sign, SLH_DSA.ht_verify, SLH_DSA.mgf, SLH_DSA.sha256_f, SLH_DSA.sha256_h_msg, SLH_DSA.sha256_prf, SLH_DSA.sha256_prf_msg, SLH_DSA.sha512_h, SLH_DSA.sha512_h_msg, SLH_DSA.sha512_prf_msg, SLH_DSA.shake_f, SLH_DSA.shake_h_msg, SLH_DSA.shake_prf, SLH_DSA.shake_prf_msg, SLH_DSA.slh_keygen_internal, SLH_DSA.slh_sign, SLH_DSA.slh_sign_internal, SLH_DSA.slh_verify, SLH_DSA.slh_verify_internal, SLH_DSA.split_digest, SLH_DSA.to_byte, SLH_DSA.to_int, SLH_DSA.wots_pk_from_sig, SLH_DSA.wots_pkgen, SLH_DSA.wots_sign, SLH_DSA.xmss_node, SLH_DSA.xmss_pk_from_sig, SLH_DSA.xmss_sign, SLH_DSA_PARAMS, integer_to_bytes
* `pq_logic/fips/frodokem.py` (598 of 672): lines only
* `pq_logic/hybrid_issuing.py` (297 of 1313): build_enc_cert_response, build_related_cert_from_csr, build_sun_hybrid_cert_from_request, is_hybrid_cert
* `pq_logic/hybrid_sig/catalyst_logic.py` (549 of 584): convert_tbs_to_pre_tbs, extract_alt_signature_data, load_catalyst_public_key, prepare_alt_sig_alg_id_extn, prepare_alt_signature_value_extn, prepare_subject_alt_public_key_info_extn, sign_cert_catalyst, sign_crl_catalyst, validate_catalyst_extensions, verify_catalyst_signature
* `pq_logic/hybrid_sig/cert_binding_for_multi_auth.py` (47 of 708): validate_ku_and_eku_related_cert
* `pq_logic/hybrid_sig/chameleon_logic.py` (970 of 1192): _clean_base_and_delta_extensions, _parse_extension, _process_extension_oids, _process_remove_extensions, _validate_keys, build_chameleon_base_certificate, build_chameleon_cert_from_paired_csr, build_delta_cert_from_paired_cert, build_paired_csr, extract_chameleon_attributes, get_chameleon_delta_public_key, get_delta_request_signature, load_chameleon_csr_delta_key_and_sender, prepare_dcd_extension_from_delta, prepare_delta_cert_req, process_extensions_for_chameleon, validate_dcd_extension, verify_paired_csr_signature
* `pq_logic/hybrid_sig/sun_lamps_hybrid_scheme_00.py` (26 of 1218): lines only
* `pq_logic/hybrid_structures.py` (105 of 346): DeltaCertificateDescriptor, DeltaCertificateRequestValue, RelatedCertificateDescriptor, RequesterCertificate
* `pq_logic/kem_mechanism.py` (265 of 427): DHKEMRFC9180._exchange_from_bytes, DHKEMRFC9180._extract_and_expand, DHKEMRFC9180._perform_exchange, DHKEMRFC9180.decaps, DHKEMRFC9180.encaps, ECDHKEM._exchange_from_bytes, ECDHKEM.decaps, ECDHKEM.encaps, ID_TO_SHA, KEY_TYPE_TO_ID, RSAKem.decaps, RSAKem.encaps, RSAOaepKem.encaps, _compute_kdf3, _get_key_id, _i2osp, _perform_ecdh
* `pq_logic/keys/abstract_pq.py` (6 of 293): PQKEMPublicKey.from_public_bytes
* `pq_logic/keys/abstract_wrapper_keys.py` (138 of 992): AbstractCompositePrivateKey._get_rsa_size, AbstractCompositePublicKey._get_trad_key_name, AbstractHybridRawPrivateKey.private_bytes_raw, BaseKey.__eq__, HybridPublicKey.__eq__, HybridSigPublicKey.__eq__, PQPrivateKey.__init__, PQPrivateKey._export_private_key, PQPrivateKey._to_one_asym_key, PQPrivateKey.from_seed, PQPublicKey.__eq__, PQPublicKey.__init__, TradKEMPublicKey.__eq__
* `pq_logic/keys/chempat_key.py` (166 of 413): CURVE_NAME_2_CONTEXT_NAME, ChempatPrivateKey._check_ct_length, ChempatPrivateKey.decaps, ChempatPrivateKey.public_key, ChempatPublicKey.encaps, ChempatPublicKey.from_public_bytes, ChempatPublicKey.get_context, ChempatPublicKey.get_oid, ChempatPublicKey.kem_combiner, ChempatPublicKey.name, ChempatPublicKey.public_bytes_raw
* `pq_logic/keys/composite_kem.py` (165 of 329): CompositeDHKEMRFC9180PrivateKey.public_key, CompositeDHKEMRFC9180PublicKey.__init__, CompositeKEMPrivateKey._export_private_key, CompositeKEMPrivateKey._export_trad_private_key, CompositeKEMPrivateKey.decaps, CompositeKEMPrivateKey.get_oid, CompositeKEMPrivateKey.public_key, CompositeKEMPublicKey.__init__, CompositeKEMPublicKey._export_public_key, CompositeKEMPublicKey._trad_encaps, CompositeKEMPublicKey.encaps, CompositeKEMPublicKey.get_oid, CompositeKEMPublicKey.kem_combiner, CompositeKEMPublicKey.name, _get_kdf_algorithm
* `pq_logic/keys/composite_sig.py` (163 of 361): CompositeSigPrivateKey._get_trad_key_name, CompositeSigPrivateKey._prepare_input, CompositeSigPrivateKey._sign_trad, CompositeSigPrivateKey.get_oid, CompositeSigPrivateKey.public_key, CompositeSigPrivateKey.sign, CompositeSigPublicKey._export_public_key, CompositeSigPublicKey._get_name, CompositeSigPublicKey._prepare_input, CompositeSigPublicKey._verify_trad, CompositeSigPublicKey.get_oid, CompositeSigPublicKey.prepare_sig_input, CompositeSigPublicKey.to_spki, CompositeSigPublicKey.verify, PREFIX, _compute_prehash, _get_label
* `pq_logic/keys/hss_validation.py` (184 of 240): _check_digest_size_mismatch, _check_hash_family_mismatch, _check_winternitz_parameter_mismatch, _normalise_pairs, _parse_lmots, _parse_lms, _validate_hss_configuration, _validate_lms_lmots_pair, validate_hss_key, validate_hss_key_levels
* `pq_logic/keys/hybrid_key_factory.py` (190 of 629): HybridKeyFactory._load_chempat_private_key, HybridKeyFactory._may_get_pub_key, HybridKeyFactory._save_keys_with_support_seed, HybridKeyFactory.from_one_asym_key, HybridKeyFactory.save_private_key_one_asym_key
* `pq_logic/keys/kem_keys.py` (176 of 668): MLKEMPrivateKey._from_seed, MLKEMPrivateKey._initialize_key, MLKEMPrivateKey.decaps, MLKEMPrivateKey.from_private_bytes, MLKEMPrivateKey.public_key, MLKEMPublicKey.ct_length, MLKEMPublicKey.encaps, ML_KEM_NAMES, VALID_MCELIECE_OPTIONS, _FRODOKEM_NAMES
* `pq_logic/keys/pq_key_factory.py` (448 of 915): PQKeyFactory._may_get_pub_key, PQKeyFactory._prepare_ml_private_key, PQKeyFactory.from_one_asym_key, PQKeyFactory.from_private_bytes, PQKeyFactory.from_public_bytes, PQKeyFactory.get_pq_alg_name, PQKeyFactory.load_ml_private_key_from_one_asym_key, PQKeyFactory.save_keys_with_support_seed, PQKeyFactory.save_private_key_one_asym_key, PQKeyFactory.validate_ml_key_export_single, PQKeyFactory.validate_pq_key_export, _load_and_validate, _load_key_from_one_asym_key
* `pq_logic/keys/sig_keys.py` (439 of 865): MLDSAPrivateKey._derive_public_key, MLDSAPrivateKey._initialize_key, MLDSAPrivateKey.from_private_bytes, MLDSAPrivateKey.from_seed, MLDSAPrivateKey.public_key, MLDSAPrivateKey.sign, MLDSAPublicKey.check_hash_alg, MLDSAPublicKey.from_public_bytes, MLDSAPublicKey.verify, ML_DSA_NAMES, SLHDSAPrivateKey._derive_public_key, SLHDSAPrivateKey._from_seed, SLHDSAPrivateKey._initialize_key, SLHDSAPrivateKey.from_private_bytes, SLHDSAPrivateKey.from_seed, SLHDSAPrivateKey.public_key, SLHDSAPrivateKey.sign, SLHDSAPublicKey.check_hash_alg, SLHDSAPublicKey.from_public_bytes, SLHDSAPublicKey.verify, sig_size
* `pq_logic/keys/stateful_sig_keys.py` (580 of 1358): DEFAULT_HSS_ALGORITHM, HSSPrivateKey._initialize_key, HSSPrivateKey.from_private_bytes, HSSPublicKey._check_name, HSSPublicKey._initialize_key, HSSPublicKey.from_public_bytes, HSSPublicKey.get_leaf_index, HSSPublicKey.get_level_names, HSSPublicKey.sig_size, XMSSMTPrivateKey._change_index, XMSSMTPrivateKey._initialize_key, XMSSMTPrivateKey.from_private_bytes, XMSSMTPrivateKey.public_key, XMSSMTPublicKey._initialize_key, XMSSMTPublicKey.from_public_bytes, XMSSMTPublicKey.get_leaf_index, XMSSMT_ALG_DETAILS, XMSSMT_ALG_IDS, XMSSPrivateKey._change_index, XMSSPrivateKey._initialize_key, XMSSPrivateKey.from_private_bytes, XMSSPrivateKey.public_key, XMSSPublicKey._initialize_key, XMSSPublicKey.from_public_bytes, XMSSPublicKey.get_leaf_index, XMSSPublicKey.key_size, XMSSPublicKey.max_sig_size, XMSS_ALG_IDS, _build_hss_algorithms, _compute_hss_signature_length, _get_and_chck_hss_name, _xmss_liboqs_sk_to_pk, build_hss_name_from_codes, compute_hss_signature_index, lms_algorithm_type_dict
* `pq_logic/keys/trad_kem_keys.py` (162 of 564): DHKEMPrivateKey.decaps, DHKEMPrivateKey.encode, DHKEMPrivateKey.from_private_bytes, DHKEMPrivateKey.public_key, DHKEMPublicKey.__eq__, DHKEMPublicKey.encaps, DHKEMPublicKey.encode, DHKEMPublicKey.from_public_bytes, DHKEMPublicKey.get_trad_name, DHKEMPublicKey.key_size, RSADecapKey.decaps, RSADecapKey.public_key, RSAEncapKey.encaps, RSAEncapKey.encode, RSAEncapKey.get_trad_name
* `pq_logic/keys/xwing.py` (152 of 324): XWingPrivateKey._export_private_key, XWingPrivateKey._from_seed, XWingPrivateKey.decaps, XWingPrivateKey.expand, XWingPrivateKey.from_private_bytes, XWingPrivateKey.from_seed, XWingPrivateKey.get_oid, XWingPrivateKey.kem_combiner, XWingPrivateKey.private_numbers, XWingPrivateKey.public_key, XWingPublicKey.encaps, XWingPublicKey.from_public_bytes, XWingPublicKey.public_bytes_raw, _XWING_LABEL
* `pq_logic/pq_utils.py` (19 of 50): get_kem_oid_from_key
* `pq_logic/pq_verify_logic.py` (723 of 800): _check_names, _get_catalyst_info_vals, _verify_sun_hybrid_trad_sig, build_migration_cert_chain, build_sun_hybrid_cert_chain, find_sun_hybrid_issuer_cert, may_extract_alt_key_from_cert, verify_cert_hybrid_signature, verify_composite_signature_with_hybrid_cert, verify_crl_signature, verify_hybrid_pkimessage_protection, verify_sun_hybrid_cert
* `pq_logic/tmp_oids.py` (111 of 469): CHEMPAT_NAME_2_OID, COMPOSITE_KEM_NAME_2_OID, COMPOSITE_KEM_OID_2_NAME, COMPOSITE_SIG_INNER_HASH_OID_2_NAME, COMPOSITE_SIG_LABELS, COMPOSITE_SIG_NAME_TO_OID, COMPOSITE_SIG_OID_TO_NAME, COMPOSITE_SIG_PREHASH_OID_2_HASH, FALCON_NAME_2_OID, id_compSig_base
* `resources/asn1utils.py` (279 of 770): _is_bit_set_in_bitstring, _is_either_bit_set_in_bitstring, asn1_compare_named_integer, asn1_compare_named_values, asn1_names_to_bitstring, get_set_bitstring_names, is_bit_set, try_decode_pyasn1
* `resources/ca_kga_logic.py` (2056 of 2378): _check_correct_non_local_key_gen_use, _check_is_hybrid_or_pq_sig_alg_cert_chain, _check_recipient_identifier, _extract_kari_content_enc_key, _extract_ktri_and_kari_content_enc_key, _extract_pwri_content_enc_key, _get_kari_cert, _is_signature_alg_id, _validate_kem_and_kemct, _validate_kemri_wrap_and_kek, _validate_kga_certificate, _validate_recip_info_size, _validate_signature_and_algorithm_in_signed_data, check_recip_enc_key, check_signer_infos, compute_key_agreement_mechanism, compute_key_transport_mechanism, extract_content_encryption_key, get_certificates_from_signed_data, process_kari, process_kem_recip_info, process_mqv, process_other_recip_info, validate_asymmetric_key_package, validate_encrypted_content_info, validate_enveloped_data, validate_issuer_and_serial_number_field, validate_kari_env_data, validate_kem_recip_info_structure, validate_kemri_env_data_for_ca, validate_kemri_enveloped_data, validate_key_agree_recipient_info, validate_key_trans_recipient_info, validate_not_local_key_gen, validate_originator_in_kari, validate_password_recipient_info, validate_pwri_enveloped_data, validate_signature_and_digest_alg, validate_signed_data_structure
* `resources/ca_ra_utils.py` (2691 of 4857): _check_cert_for_revive, _check_rev_details_mandatory_fields, _compare_comp_template, _contains_cert_template, _ensure_basic_constraints, _ensure_key_usage, _get_kga_key_from_cert_template, _process_agree_mac_key_agreement, _process_cert_hash_alg, _process_cert_requests, _process_crr_single, _process_one_cert_request, _validate_ccr_cert_template, _validate_cert_status, _validate_old_cert_id, _validate_popo_kur, _validate_pq_hash_stateful_sig_pub_key, _verify_pop_signature, _verify_ra_verified, build_ccp_from_ccr, build_cp_from_p10cr, build_ip_cmp_message, build_kup_from_kur, build_pki_conf_from_cert_conf, build_rp_from_rr, cert_template_exists, check_if_request_is_for_kga, enforce_lwcmp_for_ca, get_cert_req_msg_from_pkimessage, get_correct_ca_body_name, get_popo_from_pkimessage, get_public_key_from_cert_req_msg, is_nist_approved_xmss, is_nist_approved_xmssmt, prepare_encr_cert_from_request, process_encrypted_key, respond_to_cert_req_msg, respond_to_key_agreement_request, respond_to_key_encipherment_request, set_ca_header_fields, validate_cert_req_id, validate_cert_req_id_nums, validate_cert_request_controls, validate_cert_template_public_key, validate_enc_key_with_id, validate_kur_controls, validate_rev_details, validate_rr_crl_entry_details_reason, verify_popo_for_cert_request, verify_sig_pop_for_pki_request
* `resources/certbuildutils.py` (878 of 3581): _check_ecc_key_usage, _check_sig_key, _check_x_ecc_key_usage, _contains_unknown_extensions, _get_not_included_extensions, _verify_key_usage, build_cert_from_cert_template, build_cert_from_csr, check_extensions, check_logic_extensions, extensions_contains_extn_id, prepare_extensions, prepare_issuer_and_serial_number, prepare_key_usage_extension, prepare_ski_extension, sign_cert, validate_subject_key_identifier_extension
* `resources/certextractutils.py` (44 of 349): extract_extensions_from_csr, get_extension
* `resources/certutils.py` (907 of 2484): _validate_cross_signed_cert, _validate_key_identifiers, _validate_key_usage, build_cert_chain_from_dir, build_chain_from_list, build_cmp_chain_from_pkimessage, build_crl_chain_from_list, cert_in_list, certificates_are_trustanchors, certificates_must_be_trusted, check_is_cert_signer, find_crl_signer_cert, is_ca_cert, load_public_key_from_cert, load_truststore, must_not_contain_key_usage, validate_ca_cross_signed_cert, validate_cmp_extended_key_usage, validate_key_usage, validate_migration_certificate_key_usage, verify_cert_signature, verify_csr_signature, verify_signature_with_cert
* `resources/checkutils.py` (2263 of 2541): _check_cmp_protection_for_extra_certs, _check_message_time_for_request, _check_pq_sig_conform_to_spki, _get_cert_index, _get_cert_profile_msg_size, _is_unique, _prepare_indicies, _validate_body_types_nested, _validate_cert_conf_nonces_and_tx_id, _validate_composite_sig_conform_to_spki, _verify_sender_field_for_mac, _verify_senderkid_for_mac, check_certprofile_in_generalinfo, check_confirmwaittime_in_generalinfo, check_generalinfo_field, check_if_response_contains_encrypted_cert, check_if_response_contains_private_key, check_implicitconfirm_in_generalinfo, check_is_protection_present, check_message_time_field, check_pkimessage_signature_protection, check_protection_alg_conform_to_spki, check_rp_cmp_message_body, check_sender_cmp_protection, check_single_chain_is_ordered, find_right_cert_pos, validate_add_protection_tx_id_and_nonces, validate_ca_message_body, validate_ca_msg_ca_pubs_field, validate_certReqId, validate_cert_profile_for_ca, validate_certified_key_pair_structure, validate_cmp_body_types, validate_cross_certification_response, validate_extra_certs, validate_ids_and_nonces_for_nested_response, validate_nested_message_unique_nonces_and_ids, validate_pki_confirmation_message, validate_pkimessage_header, validate_request_message_nonces_and_tx_id, validate_sender_and_recipient, validate_sender_and_recipient_nonce, validate_senderkid_for_cmp_protection, validate_transaction_id, validate_wrong_integrity
* `resources/cmputils.py` (861 of 5792): _check_unique_controls, _parse_utf8_pairs, _validate_cert_request_reg_info, _validate_key_gen_params, calculate_cert_hash, get_cert_from_pkimessage, get_cert_response_from_pkimessage, get_pkistatusinfo, get_value_from_seq_of_info_value_field, prepare_utf8_pairs_req_info, validate_archive_options, validate_authenticator_control, validate_cert_req_inside_reg_info, validate_pki_publication_information, validate_reg_info_field, validate_reg_info_utf8_pairs, validate_reg_token_control, verify_pkistatusinfo
* `resources/compareutils.py` (613 of 685): _compare_extensions_subject_template_and_cert, _compare_issuer_and_subject_template_and_cert, _compare_public_key_template_and_cert, _compare_uids_template_and_cert, _compare_validity_template_and_cert, check_if_alg_id_parameters_is_absent, compare_alg_id_without_tag, compare_cert_template_and_cert, compare_csr_and_cert, compare_general_name_and_name, compare_pyasn1_names, find_rel_dis_name_in_name, is_null_dn
* `resources/convertutils.py` (49 of 253): str_to_bytes
* `resources/cryptoutils.py` (639 of 1128): compute_ansi_x9_63_kdf, compute_hkdf, compute_hmac, compute_password_based_mac, compute_pbkdf2_from_parameter, derive_shared_secret_ec, perform_ecdh, perform_one_pass_mqv, perform_static_dh, sign_data
* `resources/envdatautils.py` (1508 of 2272): _compute_kari_sender, _handle_kem_encapsulation, _prepare_digest_alg_ids, _prepare_key_agree_rid, _prepare_rid_for_enc_key, build_env_data_for_exchange, get_aes_keywrap_length, get_digest_from_key_hash, parse_recip_info, prepare_asymmetric_key_package, prepare_enc_key_for_popo, prepare_encapsulated_content_info, prepare_encrypted_content_info, prepare_enveloped_data, prepare_enveloped_data_with_pwri, prepare_kari, prepare_ktri, prepare_originator_identifier_or_key, prepare_originator_with_rid, prepare_password_recipient_info, prepare_recip_info, prepare_recipient_identifier, prepare_signed_attributes, prepare_signed_data, prepare_signer_identifier, prepare_signer_info, prepare_signer_infos
* `resources/exceptions.py` (57 of 385): BodyRelevantError, CMPTestSuiteError
* `resources/keyutils.py` (364 of 1456): _check_trad_sig_alg_id, _get_index, check_consistency_sig_alg_id_and_key, get_digest_alg_for_cmp, get_pq_stateful_sig_index_from_sig, load_public_key_from_cert_template, modify_pq_stateful_sig_private_key
* `resources/oid_mapping.py` (216 of 309): KEY_CLASS_MAPPING, compute_hash, get_alg_oid_from_key_hash, get_curve_instance, get_digest_hash_alg_from_alg_id, get_hash_from_oid, hash_name_to_instance, sha_alg_name_to_oid
* `resources/oidutils.py` (272 of 929): AES_GMAC_NAME_2_OID, AES_GMAC_OID_2_NAME, ALLOWED_HASH_TYPES, CMP_EKU_OID_2_NAME, CURVE_NAMES_TO_INSTANCES, ECDSA_SHA_OID_2_NAME, KMAC_OID_2_NAME, KM_KA_ALG, KM_KD_ALG, LWCMP_MAC_OID_2_NAME, MSG_SIG_ALG, PQ_SIG_OID_2_NAME, PQ_STATEFUL_HASH_SIG_NAME_2_OID, RSASSA_PSS_OID_2_NAME, RSA_SHA2_OID_2_NAME, SHA2_OID_2_NAME, SHA3_OID_2_NAME, SHA_OID_2_NAME, SLH_DSA_HASH_MAPPING, SYMMETRIC_PROT_ALGO, XWING_OID_STR
* `resources/prepare_alg_ids.py` (444 of 766): _prepare_hkdf, _prepare_kem_based_mac_params, prepare_aes_gmac_prot_alg_id, prepare_dh_based_mac_params, prepare_hmac_alg_id, prepare_kem_based_mac_alg_id, prepare_kmac_alg_id, prepare_password_based_mac_parameters, prepare_pbkdf2_alg_id, prepare_pbmac1_parameters, prepare_rsa_pss_alg_id, prepare_sha_alg_id, prepare_sig_alg_id, prepare_symmetric_encr_alg_id
* `resources/protectionutils.py` (2604 of 3061): _check_is_same_chain, _compare_alg_id, _compare_mac_params, _compare_not_strict_mac, _compare_pbkdf2_parameters, _compare_pbm_parameters, _compare_pbmac1_parameters, _compute_and_prepare_pkimessage_sig_protection, _compute_pbmac1_from_param, _compute_pkimessage_protection, _compute_symmetric_protection, _enforce_lwcmp_protection_alg, _get_aes_length, _is_parmeters_null, _patch_extra_certs, _perform_dh_based_mac_exchange, _prepare_certificate_chain, _prepare_mac_alg_id, _prepare_prot_alg_id, _prepare_signature_prot_alg_id, _verify_dh_based_protection, _verify_pki_message_sig, add_cert_to_pkimessage_used_by_protection, check_signature_alg_is_consistent, compute_and_prepare_mac, compute_dh_based_mac_from_alg_id, compute_kdf_from_alg_id, compute_kem_based_mac_from_alg_id, compute_mac_from_alg_id, dh_based_mac_derive_key, get_cmp_protection_salt, get_protection_type_from_pkimessage, get_rsa_oaep_padding, mac_protection_algorithms_must_match, may_get_tx_id, modify_pkimessage_protection, patch_protection_alg, patch_sender_and_sender_kid, prepare_protected_part, protect_hybrid_pkimessage, protect_pkimessage, protect_pkimessage_kem_based_mac, sign_data_with_alg_id, signature_protection_must_match, validate_orig_pkimessage, verify_composite_signature_with_keys, verify_kem_based_mac_protection, verify_pkimessage_protection, verify_rsassa_pss_from_alg_id, verify_signature_with_alg_id
* `resources/suiteenums.py` (127 of 314): KeyUsageStrictness, NameCompareTypes, ProtectedType, ProtectedType.get_protection_type, ProtectionAlgorithm, ProtectionAlgorithm.get
* `resources/utils.py` (347 of 1150): _get_default_lms_max_sig_size, _manipulate_hss_lms_signature, _manipulate_stateful_signature_payload, expand_string_to_length, fetch_value_from_location, filter_options, get_openssl_name_notation, get_password_in_size, manipulate_bytes_based_on_key, manipulate_first_byte, manipulate_pq_stateful_signature_bytes, nonces_must_be_diverse, nonces_must_be_unique

Not modelled: everything else, in particular the builders of requests and
responses (`certbuildutils.py`, most of `cmputils.py` and the response structures of
`ca_ra_utils.py`: the model says which certificate is issued for which template and
whether it is sent in clear, encrypted or with a generated key, not its encoding),
the builders of general messages, most of `pq_logic/hybrid_issuing.py`, TLS and HTTP clients, the Robot
Framework suites and the unit tests, and all third-party libraries
(`cryptography`, `pyasn1`, `pyhsslms`, `liboqs`).

## 6. Findings

Deviations from the stated or evidently intended behaviour that the faithful
model makes provable.  Names in parentheses are theorems.  Findings without a
theorem were seen while reading and are not claimed.

**Mock CA**
* A key update is accepted for a revoked certificate, which ends its revoked state (C02 refutation).
* The OCSP responder raises for a certificate that is only updated (C05); the CRL number of the certificate database never increases (C06).
* A certConf with status `rejection` confirms the certificate, without a hash comparison (C15).
* A KEM shared secret is marked used also when the request is rejected; an `rr` may use a spent secret; an exchange answered by a challenge does not spend it (C12).
* The stateful-signature index is bookkept by certificate instead of key; it is not checked for `rr` nor for certConf in a batch (C14).
* Certificates obtained through a challenge are not recorded and their transaction id is not reserved (C11, C47).
* The signer of a message inside a nested message is not checked for revocation (C16).
* `rr` has no ownership check; signing the response happens outside the error handling, so the client sees HTTP 500 after the state changed (C17).
* A refused batch keeps the effects of the earlier messages (C18) and its error message may carry the ids of an inner message (C19).
* Only keys that are present in all templates are compared (C09); a traditional key inside a hybrid is not compared with a PQ component (C10).

**FIPS algorithms**
* `hash_slh_sign` calls the internal signer with swapped arguments, and the pre-hash names differ in case between signing and verification (C36).
* ML-DSA verification ignores bytes after the signature (C50) and raises IndexError for short ones; ML-KEM decapsulation raises IndexError for short ciphertexts (C27).
* ML-KEM does not apply the FIPS 203 modulus check to encapsulation keys.

**Key objects**
* `PQKeyFactory.from_private_bytes` cuts its input to the expanded-key length (C57).
* A version-0 structure with public key is written but refused on loading; seeds that look like DER are refused; `must_be_version_2` has no effect; the export check refuses keys it should accept (C58).
* The comparison of seed and expanded key is vacuous for ML-KEM and for the `both` form (C59).
* An empty public key in the private-key structure is not checked and replaces the key's own (C60).
* ML-DSA signing ignores an unsupported hash algorithm while verification raises (C62).
* Private-key equality is type equality; public-key equality ignores the parameter set; pre-hash ML-DSA OIDs cannot be loaded as private keys.

**Composite signatures**
* RSA keys of unlisted sizes sign but never verify; ML-DSA-87 with RSA always fails with the default padding; the default exported OID differs from the one signed with by default (C41).
* The RSA public-key size is not compared with the OID on loading; `raw` export cannot be read; `seed_and_raw` export raises (C75).

**Key encapsulation**
* DHKEM uses the RFC 9180 identifiers of the NIST curves for brainpool curves, and hashes the received encoding of the point; an explicit random value above the modulus makes the two sides of RSA-KEM disagree (C76).
* X-Wing decapsulation ignores bytes after the ciphertext; composite encaps and decaps use SHA3-256 for every combination unless use_in_cms=False is passed; the AES and SHAKE variants of FrodoKEM share a Chempat context; private composite keys round the RSA size in their identifier, public ones do not (C40).
* A Chempat private key with a public key takes over any post-quantum public key, because it is assigned before the comparison; Chempat writes the private number of an EC key with as many bytes as the curve has bits; raw and seed_and_raw exports of composite KEM keys are not read back; X-Wing keys made from 96 bytes lose their seed, and their combined export is not read back (C77).

**Client-side checks**
* With a request, the message-time check is one-sided (C63); only the first generalInfo entry of a type is looked at, and the CA-side profile count is reversed (C64).
* The commonName requirement for MAC-protected senders is never enforced, because the textual form of an empty name is not absent (C65).
* Nested responses are checked by body name, so two requests of a type are confused (C68).
* The certificate-chain order check advances its index wrongly (C72), and its verdict is only logged by `validate_extra_certs` (C73).
* A chain of one certificate is accepted without key-usage check; `trustanchors=None` trusts nothing (C74).
* `must_be_self_signed` compares names only; cyclic pools give repetitions; an unreadable key aborts chain building (C46).
* FrodoKEM keys without liboqs: from_private_bytes accepts data of any length; the object then fails with an AssertionError on use (C39_load_length_refuted).

**Stateful signatures**
* `enforce_lw=True` switches the uniformity rules for HSS levels off (C42); keys repeat the root's parameters for every level, so the rules can never fail for a key object, and `sig_size` and the index are wrong for trees of different heights.
* `manipulate_pq_stateful_signature_bytes` writes the index little-endian, all readers are big-endian: index 1 reads back as 2^24, and the "out of range" default of HSS trees of height 20 and 25 reads back as leaf 4096 and 2 (C78).
* `modify_pq_stateful_sig_private_key` moves the root tree of an HSS key instead of the lowest one; `used_index` always fails for HSS; `last_index=True` alone exhausts the key (C79).
* XMSS^MT keys with 192-bit hashes or SHAKE256 are listed and approved but cannot be loaded: KeyError (C80). `HSSPublicKey.from_public_bytes` lets the parser's ValueError through.

**Bit strings, key usage, status**
* `is_bit_set(.., "badAlg, badTime", exclusive=True)` depends on the blank after the comma; the documented "1, 9" is a ValueError; an exclusive list passes with one bit of the list (C81).
* `must_not_contain_key_usage` lets certificates through that have some, but not all, of the forbidden usages (C83).
* `validate_cmp_extended_key_usage` refuses its own documented default form "cmcCA, cmcRA" (C84).
* `verify_pkistatusinfo` tolerates a wrong failInfo by default; `check_rp_cmp_message_body` asks for the status "rejected", which does not exist, so rejected revocations never pass (C85).
* `asn1_compare_named_values` compares positions, not values: removeFromCRL(8) is taken for privilegeWithdrawn; with `exclusive=False` it is always false (C85).
* `check_logic_extensions(for_ee=..)` is reversed: CA templates with keyCertSign are refused, end-entity templates pass (C86).
* `validate_migration_certificate_key_usage` refuses every signature key with a key usage extension; `validate_ku_and_eku_related_cert` compares the characters of the names (encipherOnly passes for decipherOnly), and refuses every extended key usage (C86).
* Requests for ECDH/ECMQV keys with key usage are always refused, and so is encipherOnly or decipherOnly with keyAgreement (C86).

**Message protection**
* A PasswordBasedMac message with an empty salt is verified with a fresh random salt: it practically never verifies (C88).
* Outside the lightweight profile the identifier of a signature algorithm is accepted as one-way function or pseudo-random function (C88).
* DHBasedMac with KMAC or GMAC derives the key from the shared secret instead of its hash; SHA-3 one-way functions can be prepared but not used; the derived key can be shorter than asked for (C89, C94).
* KemBasedMac with PBKDF2 never verifies after encoding; the verifier decapsulates the first ciphertext of generalInfo, the sender appends its own at the end; a message object cannot be verified before it is encoded (C90).
* RSASSA-PSS protection with SHA-384 or SHA-512 names that hash but signs with SHA-256; "rsassa_pss" with an EC key makes an ECDSA signature under the RSASSA-PSS identifier; DSA and composite protection has no branch in the verification (C91).
* Without an explicit public key the verification checks neither the parameters of the signature algorithm nor that it belongs to the family of the key: ecdsa-with-SHA256 with an RSA signature passes (C92).
* `mac_protection_algorithms_must_match` never looks at the confirmation when salts have to differ (it compares the response a second time), and refuses every confirmation with `same_salt`; HMAC and KMAC protection never matches itself; `allow_null` is reversed (with False the second algorithm must have no parameters) (C95).
* `signature_protection_must_match` refuses all RSA and RSASSA-PSS messages because their algorithm has parameters; pre-hashed and composite algorithms end in an IndexError; only the chain of the response's certificate is built from the other messages' certificates (C96).
* `verify_hybrid_pkimessage_protection` removes the alternative signature from the message it verifies, so a second verification always fails; it ignores the public key given for algorithms that are not composite, and ends in an IndexError when the message has no certificates; for composite algorithms it ignores `must_be_catalyst_signed` (C98).
* The alternative key is taken from generalInfo before the certificate is asked: a sender who holds only the primary key passes with an alternative key of their own (C99).
* `protect_hybrid_pkimessage(bad_message_check=True)` for catalyst spoils the alternative signature and then signs the result: the message protection itself is valid. A certificate given without `certs_dir` entries is not added to extraCerts. Protecting a message a second time leaves two alternative signatures, both removed before verifying, so the new one never verifies (C99).
* `validate_orig_pkimessage` lets other errors of the nested verification through (ValueError without password, PyAsn1Error without protection) (C100).
* `verify_popo_for_cert_request` passes index 0 to the verification of signatures: in a cr or ir with several requests only the signature of the first is verified, the second gets its certificate with an invalid signature; `check_if_request_is_for_kga` is likewise called for index 0 (C101, C102, C104).
* `verify_popo_for_cert_request` and `verify_sig_pop_for_pki_request` test for the body "crr" instead of "ccr" (C102).
* An alternative template in regInfo is validated but not used for key encipherment, key agreement and generated keys (C103).
* raVerified is accepted when the first of extraCerts, a public certificate, is the one of an RA; the protection of the message may be a MAC of anyone. A KEM-protected kur goes through `build_ip_cmp_message` with `verify_ra_verified=False` (C105).
* The issuer in oldCertId is compared with extraCerts[1], chosen by the sender; kur and p10cr templates are not subject to `validate_cert_template_public_key`; kur with key encipherment or key agreement proofs always end in BadPOP (C106, C108).
* A ccr whose template says cA=FALSE is certified so (C107).
* `check_consistency_sig_alg_id_and_key` knows no RSASSA-PSS identifier: such requests, valid for `verify_popo_for_cert_request`, are refused afterwards. RSA keys cannot be certified with keyEncipherment. challengeResp is answered as encrCert for key agreement (C109).
* `validate_cert_request_controls` returns at once when the controls are absent, whatever must be present (C110).
* The registration token is marked as used before the authenticator and the proof of possession are checked: anyone who knows it can burn it, and an honest request that fails once cannot be repeated. `process_cr` passes no issuing data: tokens and authenticators of a cr are not compared (C111).
* `validate_reg_info_utf8_pairs` unquotes the text before it parses it: UTF8Pairs in the form of RFC 4211 with an escaped percent sign, or with a name such as "fax", are refused, or read as another value (C112).
* The descriptor of a paired certificate drops the parameters of the delta's signature algorithm: with RSA the rebuilt certificate lacks the NULL its signature covers (C113).
* `validate_dcd_extension` ignores trailing data, which the rebuilding refuses (C113).
* A paired request with two delta requests is verified and issued for the last, while the checks for revoked and duplicate keys (`mock_ca/hybrid_handler.py`, `mock_ca/cert_req_handler.py`) look at the first (C114).
* `build_chameleon_cert_from_paired_csr` builds the base certificate with the default hash, whatever hash is asked for: with RSA the delta is not had back. With extensions in the delta request only, both certificates get the same object, with the key identifier of the delta key; with extensions in the base part only, the delta lacks them. A descriptor extension in both parts of the request is issued, comes first, and names a key nobody has proven (C115).
* With extensions in the base part of a paired request only, the paired certificate carries none of the CA's own extensions, and a requested key identifier twice (C115).
* `validate_enveloped_data` checks the type of the recipient at `recip_index` but always opens the first, never looks at the version of the EnvelopedData, and verifies the protection of a message with a password recipient only if `pwri` is named as the expected type (C116).
* KEM recipients with PBKDF2 or HKDF with SHA-3 pass the structure check and can then never be opened: the parameters of PBKDF2 are decoded as an AlgorithmIdentifier, and the hash of `hkdf-sha3-256` is read as `sha3` (C116).
* The originator of a key agreement recipient and the recipient identifier must both name the same certificate, that of the sender (C116). Parameters that are the DER encoding of NULL are accepted for RSA whether `allow_null` is set or not (C116).
* `prepare_enveloped_data_with_pwri` ignores its derivation function; `prepare_password_recipient_info` with HKDF derives the wrapping key from the wrapped key, not from the password; a key length other than 32 is built and never opened (C117).
* `prepare_kari` with `issuer_and_ser` and a certificate with a subject key identifier names its originator by serial number and its recipient by the identifier, which is refused; X25519 and X448 are opened with SHA-256 whatever hash was used (C117).
* `check_protection_alg_conform_to_spki` accepts any Edwards algorithm for any Edwards key, and refuses ECDSA with SHA-3 although RSA with SHA-3 and with SHA-1 is accepted (C118).
* `validate_signed_data_structure` verifies the signature over the content, not over the signed attributes (RFC 5652, 5.4), so that these can be replaced; it never compares the signer identifier, looks at the first signer only, and takes the last message digest if there are several (C119).
* A message digest that differs ends in an `AttributeError` of the error message itself (C119). A digest algorithm may be the identifier of a composite or pre-hash signature algorithm (C119).
* Chains of a key package are accepted only with the signer's certificate first or last; `prepare_signed_data` for several keys makes one signer, and the validation wants as many as keys (C119, C120).
* The usages of the certificate of a key transport or KEM recipient are not checked: the branches are empty (C120).
* `verify_catalyst_signature` verifies the alternative signature with the alternative key of the certificate itself: any ML-DSA key of the subject will do, so the alternative signature does not bind the certificate to its issuer (C121).
* Of several extensions of one type `validate_catalyst_extensions` takes the last and `load_catalyst_public_key` the first; only the latter refuses trailing data (C121).
* `verify_crl_signature` refuses every ordinary revocation list with extensions (a cRLNumber is mandatory), removes the alternative signature from the list it is given, so that a second verification fails, and `sign_crl_catalyst` with `use_rsa_pss` names PSS and signs without it (C122).
* Converting a Sun certificate to a form by value takes whatever is at the location: the hash in the certificate is not compared. `get_sun_hybrid_alt_pub_key` does not compare it either (C123, C125).
* `sun_cert_template_to_cert` writes the signature algorithm with "sha256" and signs with the hash asked for or that of the composite algorithm: for most composite algorithms ("sha512") the certificate does not verify (C124).
* `sun_csr_to_cert` uses an object identifier as the name of a hash if the request has no attribute for the hash of the key, and fails (C124).
* `validate_alt_sig_extn` removes the signature extension from the certificate it is given (C124).
* `prepare_related_cert_extension` hashes with the algorithm of the related certificate's signature, `validate_related_cert_extension` and `get_related_cert_from_list` with that of the certificate that has the extension: if the two certificates are signed with different hashes, what is issued is refused (C126).
* The location of the related certificate is not covered by the signature of the request (C127).
* `prepare_requester_certificate` replaces the request time 0 by the current time (C127).
* `validate_multi_auth_binding_csr` checks a given chain without looking whether the related certificate is in it (C128).
* `server_side_validate_cert_binding_for_multi_auth` reads the extensions as of a template and the validity as of a certificate, and demands that the related certificate's validity ends before it begins: it never succeeds (C128).
* `validate_cert_discovery_cert` hands the list of extensions to a function that takes one: it always fails. `get_cert_discovery_cert` does not compare the algorithms (C129).
* `compare_pyasn1_names`: `contains` and `contains_seq` check that the attributes of the first name are in the second, the documentation says the reverse; its examples write the mode in capitals, which raises `ValueError` (C130).
* `check_if_alg_id_parameters_is_absent` accepts decoded NULL parameters although `allow_null` is false (C130).
* `compare_cert_template_and_cert` compares only the object identifiers of extensions; `include_fields="serialNumber, issuer"`, as in `_contains_cert_template`, does not compare the issuer because of the blank; a template with an empty public key of another algorithm raises `TypeError` (C131).
* `_check_rev_details_mandatory_fields` allows the version v2 only, and `_contains_cert_template` compares it with that of the certificate: a revocation request that names a version cannot revoke a v3 certificate (C134).
* `build_rp_from_rr` with `enforce_lwcmp=False` reads `entry["certDetails"]` after `entry` was overwritten with the result: every request with an entry raises `KeyError` (C134).
* `compare_csr_and_cert` raises `NotImplementedError` for a request with any attribute besides one extension request (C133).
* `build_migration_cert_chain` looks at the list once: with the root before the intermediate certificate the chain ends with the latter. With `allow_self_signed` a certificate without an issuer in the list is returned as self-signed (C135).
* `find_sun_hybrid_issuer_cert` catches only `InvalidSignature`, `build_migration_cert_chain` no `InvalidKeyData`: another certificate with the name of the issuer and an unsupported key ends the search (C135, C136).
* `build_sun_hybrid_cert_chain` drops what is no Sun hybrid certificate: a chain never reaches an ordinary root (C136).
* `verify_cert_hybrid_signature` reads `other_cert` before it tests it, so that `catalyst_key` cannot be used, and looks at the algorithm of the key of the certificate, not of its signature (C137).
* `validate_general_response` only logs a wrong number of entries. `validate_get_ca_certs` returns silently when the size differs, or is a string, and so accepts anything (C138). It refuses absent CA certificates although `must_be_present` is false and accepts trailing bytes (C139).
* `validate_get_root_ca_cert_update` verifies no signature without the old certificate, and never compares the keys of `newWithNew` and `newWithOld` (C140).
* `validate_get_certificate_request_template` refuses an absent template or absent controls whatever the arguments say. `_validate_id_reg_ctrl_alg_id` accepts Ed25519 and Ed448 exactly when parameters are present (C141).
* `validate_genp_kem_ct_info` ignores the KEM algorithm. `build_genp_kem_ct_info_from_genm` answers a request with a value (C144).
* The general message handler never answers `keyPairParamReq` and `implicitConfirm` although it has code for both (C145). A refused message may leave a passphrase behind (C146).
* `process_pkimessage_with_popdecc` never hands the KEM ciphertext to `process_simple_challenge`, so a version 2 challenge for a KEM key cannot be answered (C149). It does not check the witness (C151).
* The Mock CA's challenge handler passes its table of open challenges as the keyword `challenge`, which is the value of the challenge. While one is open every version 3 challenge fails with a ValueError (C152).
* `validate_oob_cert_hash` hashes the `OOBCertHash` instead of the certificate, so no prepared hash is accepted (C153).
* `validate_ca_message_body` and `validate_certified_key_pair_structure` read `certOrEncCert["encryptedCert"]` of a Choice that holds a certificate. This makes pyasn1 drop the certificate, so the checked message loses it (C154, C155).
* `validate_ca_message_body` does not pass `used_p10cr` and `response_index` on. `caPubs` in a cp are never refused, `used_ir_as_cr` has no effect, and the status is always that of the first response (C154).
* `validate_pki_confirmation_message` does not know `ccp` (C156).
* `HybridIssuingHandler.is_revoked_for_issuing` drops the answers of `is_revoked` and `public_key_is_revoked`. Revoked certificates with composite keys and of the catalyst kind pass. `is_hybrid_cert` returns `related-cert` and `cert-discovery`, which are compared with `related_cert` and `cert_discovery`, so these always end in `NotImplementedError` (C157).
* `is_revoked_for_request` only checks chameleon certificates (C158).
* `build_enc_cert_response` always reads `request["body"]["ir"]`. A Sun hybrid certificate for a KEM key cannot be requested by cr or kur (C159).
* `_get_serial_number` returns a number that is in use after a hundred draws; `serial_number is None` is never true (C160).
* `process_sun_hybrid` only catches `CertRevoked` and `CMPTestSuiteError`. Unprotected requests and others end in an exception. A certificate is published before its response is protected (C161).
* `check_extensions` says that `other_extensions` override those of the request; the request wins. Extensions of the request of other types than the six that are checked are dropped (C162).
* `is_ca_cert` returns whether `cA` has a value, which is always so. `_validate_key_identifiers` compares bytes with a decoded structure, and with the wrong sign, so the authority key identifier is not checked (C163).
* `get_password_in_size` repeats or cuts a password, so different passwords give the same key (C164).
* `prepare_recip_info` accepts a key of an unsupported type if a password is given, and does not use the key; a password beside a supported key has no effect (C165).
* `prepare_enc_key_for_popo` with a recipient info and without its key encrypts the content with a new random key, which no recipient has. The version is 0 for KEM and password recipient infos; RFC 5652 asks for 3 (C166).
* `check_pkimessage_signature_protection` looks for the protection certificate with `verify_signature_with_cert`, which verifies RSA signatures with PKCS #1 v1.5 only. So a message with RSASSA-PSS is refused, although the algorithm is in `MSG_SIG_ALG` (C167).
