{
 "claims": [
  {
   "property": "C01",
   "status": "proved",
   "theorems": [
    "C01_lifecycle_edges",
    "C01_change_accepted_iff"
   ],
   "note": ""
  },
  {
   "property": "C02",
   "status": "partial",
   "theorems": [
    "C02_revoked_stays_revoked_partial",
    "C02_revoked_until_revived_refuted"
   ],
   "note": "Holds until a revive or key-update call for the same digest; the unrestricted statement is refuted (key update accepted for a revoked certificate)."
  },
  {
   "property": "C03",
   "status": "proved",
   "theorems": [
    "C03_append_only",
    "C03_add_appends_one",
    "C03_change_touches_one"
   ],
   "note": ""
  },
  {
   "property": "C04",
   "status": "proved",
   "theorems": [
    "C04_views"
   ],
   "note": ""
  },
  {
   "property": "C05",
   "status": "partial",
   "theorems": [
    "C05_ocsp_agrees_partial",
    "C05_revoked_answers_revoked",
    "C05_good_answers_good",
    "C05_unknown_answers_unauthorized",
    "C05_updated_not_answered_refuted"
   ],
   "note": "All cases of the answer are characterised; the case of a certificate that is only updated raises instead of answering (refuted theorem)."
  },
  {
   "property": "C06",
   "status": "partial",
   "theorems": [
    "C06_crl_content",
    "C06_revdb_crl_numbers_increase",
    "C06_certdb_crl_number_constant_refuted"
   ],
   "note": "CRL content and CertRevStateDB numbers proved; CertificateDB number never increases (refuted theorem)."
  },
  {
   "property": "C07",
   "status": "proved",
   "theorems": [
    "C07_remove_from_crl",
    "C07_other_reason_appends",
    "C07_removed_not_revoked",
    "C07_others_unaffected"
   ],
   "note": ""
  },
  {
   "property": "C08",
   "status": "proved",
   "theorems": [
    "C08_revoked_key_recognised"
   ],
   "note": ""
  },
  {
   "property": "C09",
   "status": "partial",
   "theorems": [
    "C09_compromised_key_detected_partial",
    "C09_no_false_alarm",
    "C09_hidden_by_missing_key_refuted",
    "C09_ccr_never_scanned_refuted"
   ],
   "note": "Exact for ir/cr/kur/p10cr when every template has a key; deviations refuted."
  },
  {
   "property": "C10",
   "status": "partial",
   "theorems": [
    "C10_key_reuse_partial",
    "C10_no_false_alarm",
    "C10_trad_vs_pq_missed_refuted",
    "C10_status_priority"
   ],
   "note": "Exact characterisation; the traditional-vs-PQ component case is missed by the code (refuted theorem)."
  },
  {
   "property": "C11",
   "status": "proved",
   "theorems": [
    "C11_take_only_unused",
    "C11_unused_accepted",
    "C11_in_use_rejected",
    "C11_rejected_unchanged",
    "C11_reuse_needs_removal",
    "C11_removed_is_free",
    "C11_granted_once_partial",
    "C11_challenge_not_reserved_refuted"
   ],
   "note": "Unit level complete. At system level, ids are granted certificates once except for transactions answered through a challenge, which are not reserved (refuted theorem)."
  },
  {
   "property": "C12",
   "status": "partial",
   "theorems": [
    "C12_unusable_secret_rejected",
    "C12_secret_used_once_partial",
    "C12_secret_was_agreed",
    "C12_rr_replays_secret_refuted",
    "C12_challenge_keeps_secret_refuted",
    "C12_rejected_request_spends_secret_refuted"
   ],
   "note": "Requests other than rr and challenge requests: proved. Deviations refuted by witness: rr may use a spent secret, an accepted request that is answered with a challenge does not spend it, a rejected request may spend it."
  },
  {
   "property": "C13",
   "status": "proved",
   "theorems": [
    "C13_answer_matches_challenge",
    "C13_answered_once"
   ],
   "note": ""
  },
  {
   "property": "C14",
   "status": "partial",
   "theorems": [
    "C14_index_accepted_once_partial",
    "C14_revocation_index_reused_refuted",
    "C14_batched_confirmation_index_reused_refuted",
    "C14_same_key_other_certificate_refuted"
   ],
   "note": "Per certificate and for every message whose protection the CA verifies. Refuted for revocation requests, certConf inside a batch, and for a second certificate of the same key. The range of the index is checked by the signature scheme, which is not modelled."
  },
  {
   "property": "C15",
   "status": "partial",
   "theorems": [
    "C15_certconf_accepted_partial",
    "C15_confirmed_once",
    "C15_refused_certificate_confirmed_refuted"
   ],
   "note": "Complete except that a certConf with status 'rejection' is accepted without comparing the hash and confirms the certificate (refuted theorem)."
  },
  {
   "property": "C16",
   "status": "proved",
   "theorems": [
    "C16_bad_signer_rejected",
    "C16_good_signer_allowed",
    "C16_pending_update_rules",
    "C16_nested_revoked_signer_refuted"
   ],
   "note": "For the request itself; the signer of a message inside a nested message is not checked by the code (refuted theorem)."
  },
  {
   "property": "C17",
   "status": "partial",
   "theorems": [
    "C17_revocation_all_or_nothing_partial",
    "C17_failure_after_revocation_refuted"
   ],
   "note": "The CA accepts exactly one entry per rr. Complete for every reply; when the response cannot be protected the client sees HTTP 500 after the change (refuted theorem)."
  },
  {
   "property": "C18",
   "status": "proved",
   "theorems": [
    "C18_empty_nested_refused",
    "C18_one_inner_is_added_protection",
    "C18_batch_answered_in_order",
    "C18_refused_batch_keeps_effects_refuted"
   ],
   "note": "A refused batch keeps the effects of earlier messages (separate refuted theorem)."
  },
  {
   "property": "C19",
   "status": "partial",
   "theorems": [
    "C19_reply_bound_to_request_partial",
    "C19_ids_echoed",
    "C19_batch_refusal_other_ids_refuted"
   ],
   "note": "Complete except for a refused batch, whose error may carry the ids of an inner message (refuted theorem)."
  },
  {
   "property": "C20",
   "status": "proved",
   "theorems": [
    "C20_update_history_chain",
    "C20_none_iff_not_updated"
   ],
   "note": ""
  },
  {
   "property": "C21",
   "status": "proved",
   "theorems": [
    "C21_decode_encode",
    "C21_encode_decode",
    "C21_encode_decode_12_refuted",
    "C21_decode_short",
    "C21_bits_bytes",
    "C21_bytes_bits"
   ],
   "note": "The d = 12 bytes-to-bytes direction is false by design (values of q and above are reduced); stated as a refutation."
  },
  {
   "property": "C22",
   "status": "proved",
   "theorems": [
    "C22_compress_error",
    "C22_compress_decompress",
    "C22_compress_rounds"
   ],
   "note": "Also: compression is rounding to nearest modulo 2^d."
  },
  {
   "property": "C23",
   "status": "proved",
   "theorems": [
    "C23_intt_ntt",
    "C23_ntt_intt"
   ],
   "note": "Both directions."
  },
  {
   "property": "C24",
   "status": "proved",
   "theorems": [
    "C24_ntt_multiplication"
   ],
   "note": ""
  },
  {
   "property": "C25",
   "status": "proved",
   "theorems": [
    "C25_cbd_range",
    "C25_sample_ntt",
    "C25_sample_ntt_range"
   ],
   "note": "sample_ntt characterised exactly, including the RuntimeError when the stream runs out."
  },
  {
   "property": "C26",
   "status": "proved",
   "theorems": [
    "C26_decaps_encaps",
    "C26_keygen_total",
    "C26_key_sizes"
   ],
   "note": "Conditional on the FIPS 203 no-failure event, stated in the coefficient ring (MlKemSpec.no_failure)."
  },
  {
   "property": "C27",
   "status": "proved",
   "theorems": [
    "C27_decaps_outcome",
    "C27_decaps_rejects",
    "C27_decaps_long_rejects",
    "C27_decaps_short_raises"
   ],
   "note": "Over-long ciphertexts are implicitly rejected; too short ones raise IndexError (C27_decaps_short_raises)."
  },
  {
   "property": "C28",
   "status": "proved",
   "theorems": [
    "C28_integer_bits",
    "C28_bits_integer",
    "C28_simple_roundtrip",
    "C28_simple_canonical",
    "C28_roundtrip",
    "C28_canonical",
    "C28_short",
    "C28_bit_length"
   ],
   "note": "Both directions, all bounds; too short input raises IndexError."
  },
  {
   "property": "C29",
   "status": "proved",
   "theorems": [
    "C29_roundtrip",
    "C29_canonical",
    "C29_unmalleable",
    "C29_total"
   ],
   "note": "All hints and all byte strings of length omega+k, three parameter sets."
  },
  {
   "property": "C30",
   "status": "proved",
   "theorems": [
    "C30_lengths",
    "C30_public_key",
    "C30_public_key_canonical",
    "C30_secret_key",
    "C30_secret_key_canonical",
    "C30_signature",
    "C30_signature_canonical"
   ],
   "note": "Both directions and the standard lengths."
  },
  {
   "property": "C31",
   "status": "proved",
   "theorems": [
    "C31_power2round",
    "C31_modpm",
    "C31_decompose",
    "C31_decompose_unique",
    "C31_hint_coefficient",
    "C31_hint",
    "C31_high_bits_stable"
   ],
   "note": "Coefficient-wise and for use_hint/make_hint on vectors."
  },
  {
   "property": "C32",
   "status": "proved",
   "theorems": [
    "C32_inverse",
    "C32_multiplicative",
    "C32_additive"
   ],
   "note": "All integer polynomials; product is that of Z_q[X]/(X^256+1)."
  },
  {
   "property": "C33",
   "status": "proved",
   "theorems": [
    "C33_keygen",
    "C33_verify",
    "C33_hash_verify",
    "C33_long_context",
    "C33_deterministic"
   ],
   "note": "For every hash function family of the right output lengths; the rejection loop is fuelled, a fuel-exhausted run is a run that has not returned. Pure and pre-hash variants."
  },
  {
   "property": "C34",
   "status": "proved",
   "theorems": [
    "C34_digits",
    "C34_range",
    "C34_short",
    "C34_int_of_bytes",
    "C34_bytes_of_int"
   ],
   "note": ""
  },
  {
   "property": "C35",
   "status": "proved",
   "theorems": [
    "C35_roundtrip",
    "C35_sizes",
    "C35_verify_total",
    "C35_sign_total",
    "C35_long_context",
    "C35_wots",
    "C35_xmss",
    "C35_fors",
    "C35_hypertree"
   ],
   "note": "All twelve parameter sets and all hash functions with the right output lengths; the layers are stated one by one as well."
  },
  {
   "property": "C36",
   "status": "partial",
   "theorems": [
    "C36_refuted",
    "C36_names_refuted"
   ],
   "note": "The claim is false of hash_slh_sign and hash_ml_dsa_verify: C36_refuted (swapped arguments of the internal signer) and C36_names_refuted (no name accepted by both)."
  },
  {
   "property": "C37",
   "status": "proved",
   "theorems": [
    "C37_set_layer",
    "C37_set_tree",
    "C37_set_key_pair",
    "C37_set_height",
    "C37_set_index",
    "C37_get",
    "C37_set_type",
    "C37_compressed",
    "C37_fields"
   ],
   "note": "int.to_bytes on a value that does not fit raises in the code and is reduced in the model; all values are in range."
  },
  {
   "property": "C38",
   "status": "proved",
   "theorems": [
    "C38_unpack_pack",
    "C38_pack_unpack",
    "C38_pack_positions",
    "C38_decode_encode_exact",
    "C38_decode_encode",
    "C38_encode_entries",
    "C38_sample_distribution",
    "C38_sample_weights"
   ],
   "note": "Exact for all matrices, byte strings, messages, noise matrices and 16-bit samples, for the three parameter sets. The floating-point rounding in decode is modelled by exact rationals (exact for the entries the KEM passes)."
  },
  {
   "property": "C39",
   "status": "proved",
   "theorems": [
    "C39_agreement",
    "C39_implicit_rejection",
    "C39_key_contents",
    "C39_ciphertext_contents",
    "C39_lengths",
    "C39_key_object",
    "C39_key_object_decaps",
    "C39_load_length_refuted",
    "C39_key_object_agreement"
   ],
   "note": "For all seeds, randomness, keys and ciphertexts, with SHAKE and AES as parameters; contents of keys and ciphertexts are pinned to the specification. Finding: without liboqs private bytes of any length load as a key (C39_load_length_refuted)."
  },
  {
   "property": "C40",
   "status": "partial",
   "theorems": [
    "C40_xwing_encaps",
    "C40_xwing_decaps",
    "C40_xwing_agreement",
    "C40_xwing_seed",
    "C40_xwing_binding",
    "C40_xwing_length_refuted",
    "C40_chempat_encaps",
    "C40_chempat_decaps",
    "C40_chempat_agreement",
    "C40_kem_half",
    "C40_chempat_binding",
    "C40_chempat_context",
    "C40_chempat_context_refuted",
    "C40_chempat_oid",
    "C40_comp_oid",
    "C40_comp_rows",
    "C40_comp_encaps",
    "C40_comp_decaps",
    "C40_comp_agreement",
    "C40_comp_default_kdf_refuted",
    "C40_comp_binding",
    "C40_comp_priv_oid",
    "C40_comp_priv_oid_refuted"
   ],
   "note": "Agreement, exact formulas, identifiers and binding for all keys, with the traditional mechanisms of C76 and the ML-KEM model; other post-quantum halves are parameters. The ciphertext does not split uniquely for X-Wing: trailing bytes are ignored (C40_xwing_length_refuted). Findings: by default (use_in_cms=True) the composite KDF is always SHA3-256 (C40_comp_default_kdf_refuted); AES and SHAKE FrodoKEM share a Chempat context (C40_chempat_context_refuted); private and public composite keys have different identifiers for odd RSA sizes (C40_comp_priv_oid_refuted)."
  },
  {
   "property": "C41",
   "status": "proved",
   "theorems": [
    "C41_verify",
    "C41_row_unique",
    "C41_not_short",
    "C41_sign",
    "C41_sign_verify",
    "C41_representative",
    "C41_oid",
    "C41_rsa_rounding_refuted",
    "C41_default_padding_refuted",
    "C41_default_spki_refuted"
   ],
   "note": "Exact for all keys, contexts and messages, with the component schemes as parameters (ML-DSA is the verified model). Findings: RSA keys of unlisted sizes sign but never verify (C41_rsa_rounding_refuted); ML-DSA-87 with RSA always fails with the default padding argument (C41_default_padding_refuted); the default exported identifier is not the one signed with by default (C41_default_spki_refuted)."
  },
  {
   "property": "C42",
   "status": "partial",
   "theorems": [
    "C42_levels",
    "C42_public_any_case",
    "C42_levels_flag",
    "C42_levels_error",
    "C42_enforce_lw_refuted",
    "C42_public_key",
    "C42_public_key_wire",
    "C42_key_valid",
    "C42_signature_length",
    "C42_index",
    "C42_index_is_position",
    "C42_index_unique",
    "C42_index_range",
    "C42_index_counts",
    "C42_mixed_heights_refused_refuted",
    "C42_mixed_heights_position_refuted",
    "C42_leaf_index",
    "C42_leaf_index_unique_refuted"
   ],
   "note": "Exact for all level lists, all public keys and all well-formed signatures, under the assumption that pyhsslms reads RFC 8554 encodings (a parser doing so is given). Refuted: enforce_lw removes the uniformity rules it is documented to add (C42_enforce_lw_refuted); with trees of different heights valid signatures are refused or counted with gaps (C42_mixed_heights_refused_refuted, C42_mixed_heights_position_refuted); get_leaf_index repeats (C42_leaf_index_unique_refuted)."
  },
  {
   "property": "C43",
   "status": "proved",
   "theorems": [
    "C43_diverse",
    "C43_unique",
    "C43_diverse_is_unique",
    "C43_only_valueerror"
   ],
   "note": "Exact characterisation of both keywords; distance counted over the zero-padded strings."
  },
  {
   "property": "C44",
   "status": "proved",
   "theorems": [
    "C44_changes",
    "C44_empty",
    "C44_twice",
    "C44_twice_refuted"
   ],
   "note": "Change of exactly the first byte proved; the involution holds only for first bytes 0 and 1 (C44_twice, C44_twice_refuted)."
  },
  {
   "property": "C45",
   "status": "proved",
   "theorems": [
    "C45_transaction_id",
    "C45_nonces",
    "C45_sender_and_recipient",
    "C45_same_name"
   ],
   "note": "Exact characterisations."
  },
  {
   "property": "C46",
   "status": "proved",
   "theorems": [
    "C46_chain",
    "C46_stops",
    "C46_complete",
    "C46_total",
    "C46_message",
    "C46_self_signed_refuted",
    "C46_repetition_refuted",
    "C46_unreadable_refuted"
   ],
   "note": "Exact shape, completeness and termination. Findings: must_be_self_signed compares names only, cyclic pools give repetitions, an unreadable key hides the issuer (three _refuted theorems)."
  },
  {
   "property": "C47",
   "status": "partial",
   "theorems": [
    "C47_issued_certificates_recorded_partial",
    "C47_challenge_certificate_unrecorded_refuted",
    "C47_refused_stateful_request_recorded_refuted"
   ],
   "note": "Refuted for certificates obtained through a challenge and for refused requests with a stateful key whose proof of possession is unreadable."
  },
  {
   "property": "C48",
   "status": "proved",
   "theorems": [
    "C48_state_changes_need_authority"
   ],
   "note": ""
  },
  {
   "property": "C49",
   "status": "proved",
   "theorems": [
    "C49_database_append_only"
   ],
   "note": ""
  },
  {
   "property": "C50",
   "status": "proved",
   "theorems": [
    "C50_decides",
    "C50_truncated",
    "C50_trailing_bytes",
    "C50_unique_encoding_refuted"
   ],
   "note": "accepts is FIPS 204 verification in the coefficient ring; RuntimeError is the exhausted XOF. Finding: trailing bytes are ignored (C50_unique_encoding_refuted)."
  },
  {
   "property": "C51",
   "status": "proved",
   "theorems": [
    "C51_challenge",
    "C51_matrix",
    "C51_secret",
    "C51_mask"
   ],
   "note": ""
  },
  {
   "property": "C52",
   "status": "proved",
   "theorems": [
    "C52_pure_format",
    "C52_prehash_format",
    "C52_injective",
    "C52_prehash_injective",
    "C52_unknown_prehash"
   ],
   "note": ""
  },
  {
   "property": "C53",
   "status": "proved",
   "theorems": [
    "C53_incomparable",
    "C53_defined"
   ],
   "note": ""
  },
  {
   "property": "C54",
   "status": "proved",
   "theorems": [
    "C54_accepted",
    "C54_signed"
   ],
   "note": "The reduction is explicit: the second preimage is one of the listed hash inputs of this verification, the chain value is a piece of the signature."
  },
  {
   "property": "C55",
   "status": "proved",
   "theorems": [
    "C55_pure",
    "C55_prehash",
    "C55_modes"
   ],
   "note": ""
  },
  {
   "property": "C56",
   "status": "proved",
   "theorems": [
    "C56_shake",
    "C56_sha2_f",
    "C56_sha2_128",
    "C56_sha2_192_256",
    "C56_unambiguous"
   ],
   "note": ""
  },
  {
   "property": "C57",
   "status": "proved",
   "theorems": [
    "C57_lengths",
    "C57_other_lengths",
    "C57_loaded",
    "C57_forms_agree",
    "C57_public",
    "C57_factory_trailing",
    "C57_factory_seed_and_key_refuted"
   ],
   "note": "Findings: PQKeyFactory.from_private_bytes cuts its input to the expanded-key length first (C57_factory_trailing, C57_factory_seed_and_key_refuted)."
  },
  {
   "property": "C58",
   "status": "proved",
   "theorems": [
    "C58_roundtrip",
    "C58_roundtrip_expanded",
    "C58_version_0_with_public_key_refuted",
    "C58_private_bytes",
    "C58_private_bytes_expanded",
    "C58_private_bytes_refuted",
    "C58_must_be_version_2_refuted",
    "C58_validated",
    "C58_validated_exact",
    "C58_validated_seed_and_raw_refuted",
    "C58_validated_no_seed_refuted"
   ],
   "note": "The exceptions are exact findings: version 0 with public key is written but refused, seeds that look like DER are refused, must_be_version_2 has no effect, the export check refuses two kinds of keys it should accept (the _refuted theorems)."
  },
  {
   "property": "C59",
   "status": "partial",
   "theorems": [
    "C59_dsa_slh",
    "C59_kem_refuted",
    "C59_one_asym_key_refuted"
   ],
   "note": "True of from_private_bytes for ML-DSA and SLH-DSA (C59_dsa_slh); false for ML-KEM and for the both form of OneAsymmetricKey (C59_kem_refuted, C59_one_asym_key_refuted)."
  },
  {
   "property": "C60",
   "status": "proved",
   "theorems": [
    "C60_attached",
    "C60_mismatch",
    "C60_empty_refuted"
   ],
   "note": "Finding: an empty public key is not checked and replaces the key's own (C60_empty_refuted)."
  },
  {
   "property": "C61",
   "status": "proved",
   "theorems": [
    "C61_derived",
    "C61_size"
   ],
   "note": ""
  },
  {
   "property": "C62",
   "status": "proved",
   "theorems": [
    "C62_kem",
    "C62_dsa",
    "C62_dsa_other_hash_refuted",
    "C62_slh",
    "C62_slh_other_hash",
    "C62_prehashed",
    "C62_dsa_signed",
    "C62_dsa_verified",
    "C62_slh_signed",
    "C62_slh_verified",
    "C62_separated"
   ],
   "note": "Finding: ML-DSA sign ignores an unsupported hash algorithm while verify raises ValueError (C62_dsa_other_hash_refuted); SLH-DSA ignores it on both sides."
  },
  {
   "property": "C63",
   "status": "proved",
   "theorems": [
    "C63_message_time",
    "C63_interval_refuted"
   ],
   "note": "Exact; finding: with a request the interval is one-sided (C63_interval_refuted)."
  },
  {
   "property": "C64",
   "status": "partial",
   "theorems": [
    "C64_general_info",
    "C64_every_entry_refuted",
    "C64_profile_count_refuted"
   ],
   "note": "The client-side check is characterised exactly; it looks only at the first entry of a type (C64_every_entry_refuted), and the CA-side profile count is reversed (C64_profile_count_refuted)."
  },
  {
   "property": "C65",
   "status": "partial",
   "theorems": [
    "C65_protection",
    "C65_signature",
    "C65_mac",
    "C65_notation",
    "C65_common_name_refuted",
    "C65_notation_ambiguous"
   ],
   "note": "Signature side exact; for MAC protection the commonName requirement is false (C65_common_name_refuted) because the textual form is never absent."
  },
  {
   "property": "C66",
   "status": "proved",
   "theorems": [
    "C66_nested_unique"
   ],
   "note": "Exact characterisation."
  },
  {
   "property": "C67",
   "status": "proved",
   "theorems": [
    "C67_added_protection"
   ],
   "note": "Exact characterisation."
  },
  {
   "property": "C68",
   "status": "partial",
   "theorems": [
    "C68_nested_response_partial",
    "C68_honest_accepted",
    "C68_every_request_refuted"
   ],
   "note": "Proved for batches without two requests of the same body type; refuted otherwise (C68_every_request_refuted)."
  },
  {
   "property": "C69",
   "status": "proved",
   "theorems": [
    "C69_body_types"
   ],
   "note": "Exact characterisation against an inductive relation, for every nesting depth."
  },
  {
   "property": "C70",
   "status": "proved",
   "theorems": [
    "C70_request",
    "C70_wrong_integrity"
   ],
   "note": "Exact; a certConf must reuse the senderNonce of the request answered by the response."
  },
  {
   "property": "C71",
   "status": "proved",
   "theorems": [
    "C71_header",
    "C71_bound_to_request"
   ],
   "note": "Conjunction of parts that C45, C63, C64 and C65 characterise."
  },
  {
   "property": "C72",
   "status": "partial",
   "theorems": [
    "C72_exact",
    "C72_ordered_passes",
    "C72_from_first",
    "C72_issued",
    "C72_sound_refuted"
   ],
   "note": "Exact characterisation of what the code decides (C72_exact) and exact for chains starting at position 0 (C72_from_first); in general unordered chains can pass (C72_sound_refuted)."
  },
  {
   "property": "C73",
   "status": "partial",
   "theorems": [
    "C73_response",
    "C73_absent",
    "C73_other",
    "C73_order_refuted",
    "C73_protection_cert"
   ],
   "note": "Exact except for the order of the chain, which does not influence the outcome (C73_order_refuted)."
  },
  {
   "property": "C74",
   "status": "partial",
   "theorems": [
    "C74_anchors",
    "C74_trusted",
    "C74_key_usage_refuted",
    "C74_system_store_refuted",
    "C74_crl"
   ],
   "note": "Exact; but a chain of one certificate is accepted without key usage check (C74_key_usage_refuted) and trustanchors=None trusts nothing (C74_system_store_refuted)."
  },
  {
   "property": "C75",
   "status": "partial",
   "theorems": [
    "C75_public_roundtrip",
    "C75_public_loaded_partial",
    "C75_public_size_refuted",
    "C75_private_loaded",
    "C75_private_roundtrip",
    "C75_seed_and_raw_refuted",
    "C75_raw_refuted"
   ],
   "note": "Everything but the size of an RSA public key: it is not compared with the identifier (C75_public_size_refuted). Saving raw keys gives something the loader cannot read (C75_raw_refuted), saving seed and key always fails (C75_seed_and_raw_refuted)."
  },
  {
   "property": "C76",
   "status": "proved",
   "theorems": [
    "C76_agreement",
    "C76_dhkem_encaps",
    "C76_dhkem_decaps",
    "C76_dhkem_suite_refuted",
    "C76_dhkem_suite",
    "C76_ecdh_encoding",
    "C76_dhkem_encoding_refuted",
    "C76_ecdh_encaps",
    "C76_ecdh_decaps",
    "C76_ephemeral",
    "C76_rsakem_agreement",
    "C76_rsakem_encaps",
    "C76_rsakem_decaps",
    "C76_rsakem_binding",
    "C76_rsakem_rand_refuted",
    "C76_kdf3"
   ],
   "note": "For all keys, randomness and library functions with symmetric Diffie-Hellman. Findings: brainpool curves share the KEM identifiers of the NIST curves (C76_dhkem_suite_refuted); DHKEM hashes the received encoding, so two encodings of a point give different secrets (C76_dhkem_encoding_refuted); an explicit RSA-KEM random value above the modulus makes the sides disagree (C76_rsakem_rand_refuted)."
  },
  {
   "property": "C77",
   "status": "partial",
   "theorems": [
    "C77_load",
    "C77_load_algorithm",
    "C77_load_unknown",
    "C77_spki",
    "C77_spki_algorithm",
    "C77_spki_roundtrip",
    "C77_save",
    "C77_xwing_roundtrip",
    "C77_xwing_no_seed",
    "C77_xwing_long_seed_refuted",
    "C77_chempat_roundtrip",
    "C77_chempat_roundtrip_any",
    "C77_chempat_mismatch",
    "C77_chempat_public_refuted",
    "C77_chempat_scalar_refuted",
    "C77_comp_roundtrip",
    "C77_comp_raw_refuted"
   ],
   "note": "Exact loading for all identifiers and byte strings; round trips for X-Wing (all forms of 32 byte seeds), Chempat with ML-KEM (all forms) and composite keys in the default form. Refuted: a stored Chempat public key may have any post-quantum half (C77_chempat_public_refuted); raw and seed_and_raw composite exports are not read back (C77_comp_raw_refuted); keys of 96 byte X-Wing seeds lose the seed or are not read back (C77_xwing_long_seed_refuted); Chempat writes EC numbers with as many bytes as the curve has bits (C77_chempat_scalar_refuted)."
  },
  {
   "property": "C78",
   "status": "partial",
   "theorems": [
    "C78_xmss_signature",
    "C78_xmss_signature_total",
    "C78_xmss_index",
    "C78_xmss_index_read",
    "C78_index_read_back_refuted",
    "C78_hss_signature",
    "C78_hss_index",
    "C78_hss_default_index",
    "C78_mt_index"
   ],
   "note": "Exact results for all signatures. Refuted parts: the index is written little-endian and read big-endian (C78_index_read_back_refuted, exact form C78_xmss_index_read, C78_hss_index); the default index of HSS is out of range exactly for heights 5, 10 and 15 (C78_hss_default_index); the changed HSS byte is the first of the LM-OTS type code (C78_hss_signature)."
  },
  {
   "property": "C79",
   "status": "partial",
   "theorems": [
    "C79_xmss_exact",
    "C79_xmss_public_key",
    "C79_change_index",
    "C79_exhaust",
    "C79_last_index",
    "C79_last_index_alone_refuted",
    "C79_used_index",
    "C79_used_default",
    "C79_hss_exact",
    "C79_hss_exhaust",
    "C79_hss_index_refuted",
    "C79_hss_used_refuted"
   ],
   "note": "Exact for XMSS and XMSS^MT; for HSS under the assumption that pyhsslms reads back what it serializes. Refuted parts: last_index without index (C79_last_index_alone_refuted), the index of HSS keys with two or more levels (C79_hss_index_refuted), used_index for HSS (C79_hss_used_refuted), used_index equal to the number of recorded keys is an IndexError (C79_used_index)."
  },
  {
   "property": "C80",
   "status": "partial",
   "theorems": [
    "C80_xmss_public",
    "C80_xmss_public_error",
    "C80_mt_public",
    "C80_mt_keyerror",
    "C80_mt_registered_refuted",
    "C80_xmss_secret",
    "C80_mt_secret",
    "C80_template_xmss",
    "C80_template_hss",
    "C80_template_error",
    "C80_mt_approved_loadable"
   ],
   "note": "Exact loading and public key extraction. Refuted part: registered XMSS^MT numbers 0x21 to 0x38 and unknown numbers end in a KeyError (C80_mt_registered_refuted, C80_mt_keyerror)."
  },
  {
   "property": "C81",
   "status": "partial",
   "theorems": [
    "C81_names",
    "C81_index",
    "C81_decimal",
    "C81_decimal_list",
    "C81_any_name",
    "C81_exclusive_name",
    "C81_exclusive_list",
    "C81_unknown",
    "C81_no_value",
    "C81_blank_refuted",
    "C81_exclusive_all_refuted",
    "C81_documented_list_refuted",
    "C81_negative",
    "C81_negative_refuted",
    "C81_name_index_refuted"
   ],
   "note": "Exact for all bit strings, indices and texts listing names. Refuted parts: a blank after a comma changes the exclusive result (C81_blank_refuted); an exclusive list passes with only one of its bits set (C81_exclusive_all_refuted); the documented list \"1, 9\" is a ValueError (C81_documented_list_refuted); negative indices count from the end (C81_negative); a set bit past the names is overlooked by name (C81_name_index_refuted). Strings are modelled as ASCII."
  },
  {
   "property": "C82",
   "status": "proved",
   "theorems": [
    "C82_names_of_bits",
    "C82_text_exact",
    "C82_split",
    "C82_bits_of_names",
    "C82_unknown_name",
    "C82_constructor",
    "C82_round_trip"
   ],
   "note": "For every table of distinct identifier-like names; the tables of key usage and failure information are shown to be such (C81_names). With no bit set the text splits into one empty name (C82_split)."
  },
  {
   "property": "C83",
   "status": "partial",
   "theorems": [
    "C83_strictness_number",
    "C83_strictness_text",
    "C83_strictness_error",
    "C83_exact",
    "C83_unknown",
    "C83_prepare",
    "C83_prepare_unknown",
    "C83_prepared_passes",
    "C83_must_not",
    "C83_must_not_absent",
    "C83_must_not_refuted"
   ],
   "note": "Exact at all levels for all usages. Refuted part: must_not_contain_key_usage refuses only if all given usages are there (C83_must_not, C83_must_not_refuted)."
  },
  {
   "property": "C84",
   "status": "partial",
   "theorems": [
    "C84_exact",
    "C84_prepare",
    "C84_prepared_passes",
    "C84_unknown",
    "C84_documented_form_refuted",
    "C84_repeated_passes_refuted",
    "C84_repeated_fails_refuted"
   ],
   "note": "Exact for extensions without repeated OIDs and names separated by single commas. Refuted parts: the documented form with a blank after the comma is always refused (C84_documented_form_refuted); repeated OIDs are counted (C84_repeated_passes_refuted, C84_repeated_fails_refuted)."
  },
  {
   "property": "C85",
   "status": "partial",
   "theorems": [
    "C85_compare",
    "C85_status_numbered",
    "C85_not_exclusive_refuted",
    "C85_reasons_refuted",
    "C85_verify",
    "C85_failures",
    "C85_default_status",
    "C85_default_refuted",
    "C85_revocation",
    "C85_revocation_rejection_refuted"
   ],
   "note": "Exact for all messages and lists of names. Refuted parts: by default a wrong failure is tolerated (C85_default_refuted); rejected revocations never pass check_rp_cmp_message_body (C85_revocation_rejection_refuted, exact form C85_revocation); without exclusive the comparison of numbers is never true (C85_not_exclusive_refuted); CRL reasons are compared by position (C85_reasons_refuted)."
  },
  {
   "property": "C86",
   "status": "partial",
   "theorems": [
    "C86_request",
    "C86_request_other",
    "C86_request_none",
    "C86_encipher_only_refuted",
    "C86_ecdh_refuted",
    "C86_logic",
    "C86_logic_basic",
    "C86_logic_refuted",
    "C86_ensure",
    "C86_ensure_default",
    "C86_migration_kem",
    "C86_migration_sig_refuted",
    "C86_related",
    "C86_related_refuted",
    "C86_related_eku_refuted",
    "C86_related_absent_refuted"
   ],
   "note": "Exact for all usages and key kinds after the extensions are decoded. Refuted parts: encipherOnly and decipherOnly are never granted (C86_encipher_only_refuted); ECDH and ECMQV requests are unknown (C86_ecdh_refuted); the end-entity flag is reversed (C86_logic_refuted, exact form C86_logic); migration certificates with signature keys never pass with a key usage (C86_migration_sig_refuted); related certificates are compared by characters (C86_related_refuted), never pass with an extended key usage (C86_related_eku_refuted), and end in an AttributeError without key usage (C86_related_absent_refuted)."
  },
  {
   "property": "C87",
   "status": "proved",
   "theorems": [
    "C87_roundtrip",
    "C87_roundtrip_lw"
   ],
   "note": "For all options; the random parts are os.urandom of the two sides. AES-GMAC keys of a length the library refuses do not get protected in the first place."
  },
  {
   "property": "C88",
   "status": "partial",
   "theorems": [
    "C88_password",
    "C88_decides",
    "C88_decides_lw",
    "C88_needs",
    "C88_tamper",
    "C88_empty_salt_refuted"
   ],
   "note": "Exact for all algorithm identifiers. Refuted part: a PasswordBasedMac message with an empty salt is verified with a fresh random salt, so the decision depends on the verifier's random bytes (C88_empty_salt_refuted). Identifiers of signature algorithms count as one-way functions and pseudo-random functions outside the profile (visible in prf_hashes and owf_hashes)."
  },
  {
   "property": "C89",
   "status": "partial",
   "theorems": [
    "C89_roundtrip",
    "C89_decides",
    "C89_key_refuted",
    "C89_sha3_refuted"
   ],
   "note": "Exact. Refuted parts: with KMAC and GMAC the key is taken from the shared secret itself, not from its hash (C89_key_refuted); SHA-3 one-way functions end in a KeyError (C89_sha3_refuted). The shared secret is given as bytes."
  },
  {
   "property": "C90",
   "status": "partial",
   "theorems": [
    "C90_roundtrip_given",
    "C90_roundtrip_decaps",
    "C90_roundtrip_encaps",
    "C90_accepts",
    "C90_rejects",
    "C90_pbkdf2_refuted",
    "C90_second_ciphertext_refuted",
    "C90_untransported_refuted"
   ],
   "note": "Exact acceptance; round trips for KDF2, KDF3 and HKDF. Refuted parts: PBKDF2 (C90_pbkdf2_refuted), a header that already has a ciphertext (C90_second_ciphertext_refuted), the message object before it is encoded (C90_untransported_refuted). Decapsulation of the library is a parameter that undoes its encapsulation."
  },
  {
   "property": "C91",
   "status": "partial",
   "theorems": [
    "C91_roundtrip",
    "C91_pss_hash_refuted",
    "C91_other_keys_refuted"
   ],
   "note": "For all RSA, EC, Ed25519, Ed448, post-quantum and stateful keys, without random parameters. Refuted parts: RSASSA-PSS with a hash other than SHA-256 and SHAKE (C91_pss_hash_refuted); rsassa_pss with other keys, DSA keys and composite keys (C91_other_keys_refuted)."
  },
  {
   "property": "C92",
   "status": "partial",
   "theorems": [
    "C92_identifier",
    "C92_message",
    "C92_certificate_partial",
    "C92_tamper",
    "C92_certificate_refuted",
    "C92_composite_refuted"
   ],
   "note": "Exact with a public key. With the certificate only for identifiers that fit the key (C92_certificate_partial). Refuted parts: the certificate path checks neither parameters nor family (C92_certificate_refuted); a composite identifier is not compared with the key's (C92_composite_refuted)."
  },
  {
   "property": "C93",
   "status": "proved",
   "theorems": [
    "C93_kind",
    "C93_kind_unique",
    "C93_unknown",
    "C93_message",
    "C93_errors"
   ],
   "note": ""
  },
  {
   "property": "C94",
   "status": "partial",
   "theorems": [
    "C94_dh_counter",
    "C94_x963",
    "C94_x963_prefix",
    "C94_x963_limit",
    "C94_dh_key",
    "C94_dh_key_length_partial",
    "C94_dh_key_length_refuted"
   ],
   "note": "Exact. Refuted part: the DHBasedMac key derivation can return fewer bytes than asked for when the base key is longer than a digest (C94_dh_key_length_refuted); the length is right for keys of up to 40 bytes and for base keys no longer than a digest (C94_dh_key_length_partial)."
  },
  {
   "property": "C95",
   "status": "partial",
   "theorems": [
    "C95_exact",
    "C95_pair",
    "C95_not_strict",
    "C95_not_strict_mac_refuted",
    "C95_conf_refuted",
    "C95_bare_refuted"
   ],
   "note": "Exact in both modes. Refuted parts: the confirmation is not looked at, or with same_salt never passes (C95_conf_refuted); HMAC and KMAC never match, nor does a received PasswordBasedMac request (C95_bare_refuted); without strict two signature algorithms pass (C95_not_strict_mac_refuted)."
  },
  {
   "property": "C96",
   "status": "partial",
   "theorems": [
    "C96_exact",
    "C96_consistent",
    "C96_parameters_refuted",
    "C96_first_cert_refuted",
    "C96_prehash_refuted"
   ],
   "note": "Exact; the chain builder is a parameter (C46 is about it). Refuted parts: RSA and PSS signatures are never consistent because of their parameters (C96_parameters_refuted); another message may start with a different certificate (C96_first_cert_refuted); pre-hashed algorithms raise an IndexError (C96_prehash_refuted)."
  },
  {
   "property": "C97",
   "status": "proved",
   "theorems": [
    "C97_salt",
    "C97_salt_exact",
    "C97_modify_exact",
    "C97_modified"
   ],
   "note": ""
  },
  {
   "property": "C98",
   "status": "partial",
   "theorems": [
    "C98_accepts",
    "C98_one_key",
    "C98_object",
    "C98_object_any",
    "C98_twice_refuted",
    "C98_key_refuted",
    "C98_must_refuted"
   ],
   "note": "Exact, and exact about the message object. Refuted parts: a message verified through an alternative signature never verifies again (C98_twice_refuted); the public key argument has no effect unless the algorithm is composite (C98_key_refuted); must_be_catalyst_signed has no effect for composite algorithms (C98_must_refuted). The alternative key of a certificate (may_extract_alt_key_from_cert) and the composition of keys are parameters."
  },
  {
   "property": "C99",
   "status": "partial",
   "theorems": [
    "C99_signature",
    "C99_signature_accepted",
    "C99_bad",
    "C99_certs",
    "C99_catalyst",
    "C99_catalyst_accepted",
    "C99_certificate_refuted",
    "C99_self_asserted_refuted",
    "C99_bad_refuted",
    "C99_composite_refuted",
    "C99_again_refuted"
   ],
   "note": "For all keys, with hybrid generalInfo entries absent before. Refuted parts: the certificate is not sent without a directory (C99_certificate_refuted); the alternative key is taken from the message itself whatever the certificate says (C99_self_asserted_refuted); bad_message_check leaves the primary signature valid (C99_bad_refuted); with a composite primary key the alternative signature is not looked at (C99_composite_refuted); protecting again gives a message that does not verify (C99_again_refuted)."
  },
  {
   "property": "C100",
   "status": "partial",
   "theorems": [
    "C100_accepts",
    "C100_missing",
    "C100_fails",
    "C100_failures_refuted"
   ],
   "note": "Exact. Refuted part: failures other than a wrong signature or MAC are not reported as BadMessageCheck (C100_failures_refuted). Decoding of PKIMessages is a parameter."
  },
  {
   "property": "C101",
   "status": "partial",
   "theorems": [
    "C101_single",
    "C101_batch_partial",
    "C101_server_partial",
    "C101_server_single",
    "C101_exact",
    "C101_batch_refuted"
   ],
   "note": "Proved for a single request and for the first of several, with an exact condition (C101_exact) and for everything the server answers (C101_server_partial). For the others of a message the signature looked at is the one of the first request; that this is wrong is C101_batch_refuted. The control checks (validate_cert_request_controls) and certificate building are parameters."
  },
  {
   "property": "C102",
   "status": "partial",
   "theorems": [
    "C102_first",
    "C102_other_partial",
    "C102_signature",
    "C102_other_refuted",
    "C102_cross_refuted"
   ],
   "note": "Exact for the first request. For the others the signature of the first request is verified (C102_other_partial), so that a valid one is refused (C102_other_refuted); cross-certification requests are always refused (C102_cross_refuted)."
  },
  {
   "property": "C103",
   "status": "partial",
   "theorems": [
    "C103_exact",
    "C103_key",
    "C103_no_proof",
    "C103_in_force",
    "C103_ignored_refuted"
   ],
   "note": "Exact; the key is preserved in all cases; the alternative template is in force for signed and RA-verified requests. Refuted part: it is ignored for the other proofs and for generated keys (C103_ignored_refuted)."
  },
  {
   "property": "C104",
   "status": "partial",
   "theorems": [
    "C104_ids",
    "C104_all",
    "C104_fails",
    "C104_profile",
    "C104_server",
    "C104_cr_refuted",
    "C104_mixed_refuted"
   ],
   "note": "Exact. Refuted parts: whether a request is for a generated key is decided from the first request, so requests that are answered alone fail together (C104_mixed_refuted); the lightweight profile is not enforced for cr (C104_cr_refuted)."
  },
  {
   "property": "C105",
   "status": "partial",
   "theorems": [
    "C105_exact",
    "C105_issued",
    "C105_sender_refuted",
    "C105_mac_refuted",
    "C105_kem_refuted"
   ],
   "note": "The check is exact. Refuted parts: it is not looked at who protected the message (C105_sender_refuted, C105_mac_refuted), and key updates protected with a KEM are not checked (C105_kem_refuted). Chain building and key usages are parameters."
  },
  {
   "property": "C106",
   "status": "partial",
   "theorems": [
    "C106_exact",
    "C106_controls",
    "C106_issuer_refuted",
    "C106_template_refuted",
    "C106_kem_refuted"
   ],
   "note": "Exact. Refuted parts: the issuer is compared with the second certificate of the message instead of the issuer of the old one (C106_issuer_refuted); the key rules of templates are not applied (C106_template_refuted); proofs other than signatures are refused (C106_kem_refuted)."
  },
  {
   "property": "C107",
   "status": "partial",
   "theorems": [
    "C107_exact",
    "C107_usage",
    "C107_ca_refuted"
   ],
   "note": "Exact. Refuted part: a template that says it is no CA is certified as it is (C107_ca_refuted)."
  },
  {
   "property": "C108",
   "status": "partial",
   "theorems": [
    "C108_exact",
    "C108_template_refuted"
   ],
   "note": "Exact. Refuted part: the key rules of templates are not applied (C108_template_refuted)."
  },
  {
   "property": "C109",
   "status": "partial",
   "theorems": [
    "C109_template",
    "C109_algorithm",
    "C109_encrypted",
    "C109_plain",
    "C109_signature",
    "C109_fits",
    "C109_pss_refuted",
    "C109_rsa_refuted",
    "C109_challenge_refuted"
   ],
   "note": "Exact conditions. Refuted parts: requests signed with RSASSA-PSS are refused (C109_pss_refuted); RSA keys cannot use key encipherment (C109_rsa_refuted); challenge-response is answered with an encrypted certificate for key agreement keys (C109_challenge_refuted)."
  },
  {
   "property": "C110",
   "status": "partial",
   "theorems": [
    "C110_exact",
    "C110_text",
    "C110_archive",
    "C110_publication",
    "C110_required_refuted",
    "C110_twice_refuted"
   ],
   "note": "Exact. Refuted parts: nothing is required when the field of the controls is absent (C110_required_refuted); archive options and publication information may be given more than once (C110_twice_refuted)."
  },
  {
   "property": "C111",
   "status": "partial",
   "theorems": [
    "C111_once",
    "C111_mark",
    "C111_entitled",
    "C111_consumed_refuted",
    "C111_cr_refuted",
    "C111_needed_refuted"
   ],
   "note": "At most once, with the right token, for all histories of ir and KEM-protected kur. Refuted parts: the token is used up by a request that is then refused (C111_consumed_refuted); a cr is accepted with any token, any number of times (C111_cr_refuted); no request needs a token (C111_needed_refuted)."
  },
  {
   "property": "C112",
   "status": "partial",
   "theorems": [
    "C112_exact",
    "C112_round",
    "C112_quote",
    "C112_utf8",
    "C112_prepare",
    "C112_prepared",
    "C112_validate",
    "C112_plain",
    "C112_unquoted",
    "C112_wide",
    "C112_raw_refuted"
   ],
   "note": "Exact, with UTF-8 and URL quoting modelled. Refuted part: texts that are not quoted as a whole (as in RFC 4211, and with encode=False) are decoded twice (C112_raw_refuted). str.isdigit is a parameter that knows the digits 2 and 3. Unquoting is specified exactly (C112_unquoted, C112_wide)."
  },
  {
   "property": "C113",
   "status": "partial",
   "theorems": [
    "C113_exact",
    "C113_always",
    "C113_any",
    "C113_succeeds",
    "C113_key",
    "C113_built_key",
    "C113_validate",
    "C113_built_validates",
    "C113_validated",
    "C113_parameters_refuted",
    "C113_trailing_refuted",
    "C113_certificate"
   ],
   "note": "Exact, for any certificates. Refuted parts: the parameters of a differing algorithm are lost (C113_parameters_refuted); the validation accepts descriptors with trailing data that cannot be rebuilt from (C113_trailing_refuted)."
  },
  {
   "property": "C114",
   "status": "partial",
   "theorems": [
    "C114_verify",
    "C114_built",
    "C114_bad",
    "C114_sender",
    "C114_one",
    "C114_two_refuted",
    "C114_signature"
   ],
   "note": "Exact. Refuted part: of two delta requests the last is verified and issued, the first is looked up for revoked and duplicate keys (C114_two_refuted)."
  },
  {
   "property": "C115",
   "status": "partial",
   "theorems": [
    "C115_issued",
    "C115_keys",
    "C115_delta_key",
    "C115_extensions",
    "C115_asked",
    "C115_unasked",
    "C115_base_only",
    "C115_critical",
    "C115_rebuilds",
    "C115_default",
    "C115_descriptor",
    "C115_hash_refuted",
    "C115_one_part_refuted",
    "C115_injected_refuted"
   ],
   "note": "For all requests whose two parts have extensions. Refuted parts: another hash with an RSA key (C115_hash_refuted); extensions in one part only (C115_one_part_refuted); a descriptor in both parts of the request is issued and hides the real one (C115_injected_refuted). Exact also without extensions (C115_unasked) and with extensions in the base part only (C115_base_only)."
  },
  {
   "property": "C116",
   "status": "partial",
   "theorems": [
    "C116_content",
    "C116_password",
    "C116_kem",
    "C116_agreement",
    "C116_key",
    "C116_expected_password",
    "C116_expected_kem",
    "C116_expected_other",
    "C116_ca",
    "C116_named",
    "C116_salt",
    "C116_version_refuted",
    "C116_index_refuted",
    "C116_unverified_refuted",
    "C116_kdf_refuted"
   ],
   "note": "Exact for every function. Refuted parts: the version is not looked at (C116_version_refuted); with several recipients the first is used, whatever index is given (C116_index_refuted); without an expected type the protection is not verified (C116_unverified_refuted); accepted derivation functions that never open (C116_kdf_refuted)."
  },
  {
   "property": "C117",
   "status": "partial",
   "theorems": [
    "C117_content",
    "C117_password",
    "C117_password_env",
    "C117_transport",
    "C117_agreement",
    "C117_kem",
    "C117_exchange",
    "C117_named",
    "C117_transport_form",
    "C117_agreement_form",
    "C117_kem_form",
    "C117_kem_cert",
    "C117_exchange_form",
    "C117_kdf_refuted",
    "C117_hkdf_refuted",
    "C117_scheme_refuted",
    "C117_mixed_refuted",
    "C117_ciphertext_refuted"
   ],
   "note": "Exact in the options. Refuted parts: the derivation function asked for is ignored (C117_kdf_refuted); HKDF with a password (C117_hkdf_refuted); another hash with X25519 (C117_scheme_refuted); issuer and serial number for a certificate with a key identifier (C117_mixed_refuted); a given ciphertext without its secret (C117_ciphertext_refuted)."
  },
  {
   "property": "C118",
   "status": "partial",
   "theorems": [
    "C118_answers",
    "C118_exact",
    "C118_hashes",
    "C118_eddsa_refuted",
    "C118_sha3_refuted"
   ],
   "note": "Exact. Refuted parts: Ed448 is accepted for Ed25519 keys and the other way round (C118_eddsa_refuted); ECDSA with SHA-3 is refused (C118_sha3_refuted)."
  },
  {
   "property": "C119",
   "status": "partial",
   "theorems": [
    "C119_exact",
    "C119_chain",
    "C119_built",
    "C119_built_ski",
    "C119_built_digest",
    "C119_built_attributes",
    "C119_built_frame",
    "C119_built_nothing",
    "C119_built_bad",
    "C119_keys_refuted",
    "C119_attributes_refuted",
    "C119_signer_refuted",
    "C119_signers_refuted",
    "C119_digest_refuted"
   ],
   "note": "Exact, with the round trip of the builder. Refuted parts: several keys are built but never accepted (C119_keys_refuted); the signature does not cover the signed attributes (C119_attributes_refuted); the signer identifier is not compared (C119_signer_refuted); only the first signer is looked at (C119_signers_refuted); a wrong digest is an AttributeError (C119_digest_refuted)."
  },
  {
   "property": "C120",
   "status": "partial",
   "theorems": [
    "C120_exact",
    "C120_key",
    "C120_password",
    "C120_keys_refuted",
    "C120_usage_refuted"
   ],
   "note": "Exact, with the round trip for a password. Refuted parts: several keys need as many recipients, signers and digests (C120_keys_refuted); the usages of key transport and KEM certificates are not checked (C120_usage_refuted)."
  },
  {
   "property": "C121",
   "status": "partial",
   "theorems": [
    "C121_extensions",
    "C121_none",
    "C121_some",
    "C121_malformed",
    "C121_algorithm",
    "C121_verify",
    "C121_covers",
    "C121_signed",
    "C121_round_trip",
    "C121_bad",
    "C121_load",
    "C121_issuer_refuted",
    "C121_readers_refuted",
    "C121_trailing_refuted",
    "C121_algorithm_refuted"
   ],
   "note": "Exact, with the round trip. Refuted parts: the alternative signature is verified with the key in the certificate itself, not that of the issuer (C121_issuer_refuted); the verification takes the last alternative key and load_catalyst_public_key the first (C121_readers_refuted), and they disagree about trailing data (C121_trailing_refuted); the algorithm demanded need not be that of the key (C121_algorithm_refuted)."
  },
  {
   "property": "C122",
   "status": "partial",
   "theorems": [
    "C122_verify",
    "C122_invalid",
    "C122_signed",
    "C122_round_trip",
    "C122_plain",
    "C122_extensions_refuted",
    "C122_twice_refuted",
    "C122_pss_refuted"
   ],
   "note": "Exact, with the round trips. Refuted parts: an ordinary list with extensions is refused although no alternative signature is demanded (C122_extensions_refuted); a list that was verified cannot be verified again (C122_twice_refuted); with RSASSA-PSS the algorithm named is not that of the signature (C122_pss_refuted)."
  },
  {
   "property": "C123",
   "status": "partial",
   "theorems": [
    "C123_key_extension",
    "C123_signature_extension",
    "C123_convert",
    "C123_other_form",
    "C123_form",
    "C123_converted",
    "C123_round_trip",
    "C123_names",
    "C123_contains",
    "C123_has_extensions",
    "C123_hash_checked_refuted",
    "C123_contains_any_refuted",
    "C123_converted_refuted"
   ],
   "note": "Exact, with the round trip between all forms. Refuted parts: converting to a value does not check the hash of what is at the location (C123_hash_checked_refuted); only the first certificate with a signature by value is considered (C123_contains_any_refuted); with two extensions of a type the certificate does not have the form asked for after the conversion (C123_converted_refuted)."
  },
  {
   "property": "C124",
   "status": "partial",
   "theorems": [
    "C124_key",
    "C124_signature",
    "C124_signature_twice",
    "C124_verify",
    "C124_template",
    "C124_request",
    "C124_request_default_refuted",
    "C124_issued_verified",
    "C124_bad_refused",
    "C124_template_verified_refuted"
   ],
   "note": "Exact, with the round trip of issuing and verifying. Refuted parts: a certificate issued from a template names its signature algorithm with \"sha256\" whatever hash it is signed with (C124_template_verified_refuted); a request without the attribute for the hash of the key is never answered (C124_request_default_refuted); a validated certificate cannot be validated again (C124_signature_twice)."
  },
  {
   "property": "C125",
   "status": "partial",
   "theorems": [
    "C125_key",
    "C125_none",
    "C125_sun_key",
    "C125_reference_checked_refuted",
    "C125_access_ignored_refuted",
    "C125_malformed"
   ],
   "note": "Exact. Refuted parts: the hash of a key by reference is not compared (C125_reference_checked_refuted); an unreadable subjectInfoAccess extension hides the key (C125_access_ignored_refuted)."
  },
  {
   "property": "C126",
   "status": "partial",
   "theorems": [
    "C126_validated",
    "C126_unique",
    "C126_prepared",
    "C126_other_hash_refuted",
    "C126_other_hash",
    "C126_found",
    "C126_not_found",
    "C126_accepted_found",
    "C126_found_accepted_refuted"
   ],
   "note": "Exact, with uniqueness and the round trip for equal hashes. Refuted parts: the extension is made with the hash of the related certificate and validated with that of the certificate that has it (C126_other_hash_refuted; for which, C126_other_hash); a certificate found in a list need not be accepted, the usages are not looked at (C126_found_accepted_refuted)."
  },
  {
   "property": "C127",
   "status": "partial",
   "theorems": [
    "C127_proved",
    "C127_request",
    "C127_time_zero_refuted",
    "C127_round_trip",
    "C127_time",
    "C127_refused",
    "C127_bad_signature",
    "C127_copied",
    "C127_moved",
    "C127_location_refuted"
   ],
   "note": "Exact, with the round trip. Refuted parts: the location is not signed, so that it can be replaced (C127_location_refuted, C127_moved); a request time of 0 is replaced by the current time (C127_time_zero_refuted). The proof can be copied into another certificate request (C127_copied)."
  },
  {
   "property": "C128",
   "status": "partial",
   "theorems": [
    "C128_accepted",
    "C128_other_chain_refuted",
    "C128_no_chain",
    "C128_server_refuted",
    "C128_issued"
   ],
   "note": "Exact. Refuted parts: a chain that is given is checked although it need not contain the certificate that is returned (C128_other_chain_refuted); the check of the server fails for everything that can be handed in (C128_server_refuted). Without OpenSSL only the last certificate is looked at (C128_no_chain). Building a chain is that of C46."
  },
  {
   "property": "C129",
   "status": "partial",
   "theorems": [
    "C129_descriptor",
    "C129_prepared_fields",
    "C129_prepared",
    "C129_algorithms",
    "C129_prepared_fits",
    "C129_applies",
    "C129_discovered",
    "C129_discovered_fits_refuted",
    "C129_validated_refuted"
   ],
   "note": "Exact for extracting, preparing, the algorithms and finding. Refuted parts: what is found need not have the algorithms of the descriptor (C129_discovered_fits_refuted); validate_cert_discovery_cert always fails (C129_validated_refuted)."
  },
  {
   "property": "C130",
   "status": "partial",
   "theorems": [
    "C130_modes",
    "C130_documented_mode_refuted",
    "C130_without_tag",
    "C130_strict",
    "C130_contains",
    "C130_contains_seq",
    "C130_documented_refuted",
    "C130_order",
    "C130_find",
    "C130_null",
    "C130_params",
    "C130_params_refuted"
   ],
   "note": "Exact for each mode. Refuted parts: the documentation says the reverse of what contains checks (C130_documented_refuted) and writes the modes in capitals, which are refused (C130_documented_mode_refuted); NULL parameters that were decoded count as absent even if they are not allowed to (C130_params_refuted)."
  },
  {
   "property": "C131",
   "status": "partial",
   "theorems": [
    "C131_equal",
    "C131_different",
    "C131_empty",
    "C131_precedence",
    "C131_fewer",
    "C131_strict",
    "C131_extensions_refuted",
    "C131_blank_refuted",
    "C131_key_refuted",
    "C131_key_error"
   ],
   "note": "Exact. Refuted parts: the values of extensions are not compared (C131_extensions_refuted); a field after a comma and a blank is not compared (C131_blank_refuted); an empty key with another algorithm raises TypeError (C131_key_refuted)."
  },
  {
   "property": "C132",
   "status": "partial",
   "theorems": [
    "C132_found",
    "C132_fits",
    "C132_by_serial",
    "C132_anything",
    "C132_subject_key",
    "C132_template",
    "C132_no_key",
    "C132_no_subject",
    "C132_granted",
    "C132_granted_refuted"
   ],
   "note": "Exact. Refuted part: the status grantedWithMods is accepted without modifications (C132_granted_refuted). An empty template would select the first certificate (C132_anything); it is refused before (C134)."
  },
  {
   "property": "C133",
   "status": "partial",
   "theorems": [
    "C133_request",
    "C133_no_more",
    "C133_attributes",
    "C133_attributes_refuted",
    "C133_key"
   ],
   "note": "Exact. Refuted part: a request with another attribute raises NotImplementedError (C133_attributes_refuted, C133_attributes)."
  },
  {
   "property": "C134",
   "status": "partial",
   "theorems": [
    "C134_accepted",
    "C134_identified",
    "C134_unique",
    "C134_once",
    "C134_revive",
    "C134_unchecked",
    "C134_version",
    "C134_version_refuted",
    "C134_response",
    "C134_no_profile",
    "C134_no_profile_refuted"
   ],
   "note": "Exact, with uniqueness and one step of history each way. Refuted parts: an entry that names the version cannot revoke a v3 certificate (C134_version_refuted, C134_version); without the lightweight profile nothing is answered (C134_no_profile_refuted, C134_no_profile). The histories of the mock CA are those of C17 and C48."
  },
  {
   "property": "C135",
   "status": "partial",
   "theorems": [
    "C135_chain",
    "C135_ends",
    "C135_complete",
    "C135_order_refuted",
    "C135_self_signed_refuted",
    "C135_unreadable",
    "C135_unreadable_refuted"
   ],
   "note": "Sound, and complete for ordered lists. Refuted parts: the list is looked at once, so that in another order the chain ends early (C135_order_refuted); a certificate without an issuer in the list passes for self-signed (C135_self_signed_refuted); a key that cannot be read ends the search (C135_unreadable_refuted, C135_unreadable)."
  },
  {
   "property": "C136",
   "status": "partial",
   "theorems": [
    "C136_issuer",
    "C136_issuer_refuted",
    "C136_chain",
    "C136_members",
    "C136_ordinary_refuted"
   ],
   "note": "Exact. Refuted parts: a key that cannot be read before the issuer ends the search (C136_issuer_refuted); a certificate that is no Sun hybrid certificate, such as the root, is never in the chain (C136_ordinary_refuted)."
  },
  {
   "property": "C137",
   "status": "partial",
   "theorems": [
    "C137_kind",
    "C137_two",
    "C137_catalyst",
    "C137_catalyst_refuted",
    "C137_own_key_refuted"
   ],
   "note": "Exact. Refuted parts: the catalyst key cannot stand in for the other certificate (C137_catalyst_refuted, C137_catalyst); the key of the certificate itself is looked at in place of its signature algorithm (C137_own_key_refuted)."
  },
  {
   "property": "C138",
   "status": "partial",
   "theorems": [
    "C138_first",
    "C138_kind",
    "C138_size_ignored",
    "C138_size_refuted",
    "C138_ca_certs_silent"
   ],
   "note": "Exact. Refuted parts: a wrong number of entries is only logged (C138_size_refuted, C138_size_ignored); for the CA certificates a wrong size, or a size given as a string, makes the check pass without looking at the answer (C138_ca_certs_silent)."
  },
  {
   "property": "C139",
   "status": "partial",
   "theorems": [
    "C139_exact",
    "C139_absent_refuted",
    "C139_trailing_refuted"
   ],
   "note": "Exact. Refuted parts: an answer without certificates is refused although it may be absent (C139_absent_refuted); bytes after the certificates are accepted (C139_trailing_refuted)."
  },
  {
   "property": "C140",
   "status": "partial",
   "theorems": [
    "C140_exact",
    "C140_without_old",
    "C140_unsigned_refuted",
    "C140_other_key_refuted"
   ],
   "note": "Exact. Refuted parts: without the old certificate no signature at all is checked (C140_without_old, C140_unsigned_refuted); newWithOld may hold another key than newWithNew (C140_other_key_refuted)."
  },
  {
   "property": "C141",
   "status": "partial",
   "theorems": [
    "C141_exact",
    "C141_optional_refuted",
    "C141_edwards_refuted"
   ],
   "note": "Exact. Refuted parts: the template and its key specification cannot be left out although the arguments say so (C141_optional_refuted); Ed25519 and Ed448 are accepted exactly when the parameters are present, against RFC 8410 (C141_edwards_refuted)."
  },
  {
   "property": "C142",
   "status": "proved",
   "theorems": [
    "C142_update",
    "C142_current"
   ],
   "note": "Exact characterisations, decoding and the checks of a single CRL as parameters."
  },
  {
   "property": "C143",
   "status": "proved",
   "theorems": [
    "C143_signing",
    "C143_encryption",
    "C143_symmetric",
    "C143_language",
    "C143_passphrase",
    "C143_encryption_cert"
   ],
   "note": "Exact characterisations. Note: an empty list of signing key types is accepted."
  },
  {
   "property": "C144",
   "status": "partial",
   "theorems": [
    "C144_client",
    "C144_server",
    "C144_agree",
    "C144_algorithm_refuted",
    "C144_value_refuted"
   ],
   "note": "Exact, and agreement proved for every correct KEM. Refuted parts: the algorithm beside the ciphertext is never looked at (C144_algorithm_refuted); a request with a value, which must be absent, is answered (C144_value_refuted)."
  },
  {
   "property": "C145",
   "status": "partial",
   "theorems": [
    "C145_answers",
    "C145_exact",
    "C145_number",
    "C145_refused",
    "C145_implemented_refuted"
   ],
   "note": "Refuted part: the code that answers key pair parameter requests and the implicit confirmation is never reached (C145_implemented_refuted)."
  },
  {
   "property": "C146",
   "status": "partial",
   "theorems": [
    "C146_state",
    "C146_atomic",
    "C146_rollback_refuted",
    "C146_remove",
    "C146_extra_certs"
   ],
   "note": "Refuted part: without Lightweight CMP a refused message may leave a passphrase behind (C146_rollback_refuted)."
  },
  {
   "property": "C147",
   "status": "proved",
   "theorems": [
    "C147_template",
    "C147_language",
    "C147_symmetric",
    "C147_signing",
    "C147_encryption",
    "C147_passphrase",
    "C147_crl",
    "C147_ca_certs",
    "C147_root_update",
    "C147_kem"
   ],
   "note": "The template passes iff the configured RSA length is at least 2048 (C147_template)."
  },
  {
   "property": "C148",
   "status": "proved",
   "theorems": [
    "C148_exact"
   ],
   "note": "The comparison of the distribution point with the CA is a parameter."
  },
  {
   "property": "C149",
   "status": "partial",
   "theorems": [
    "C149_version_2",
    "C149_version_3",
    "C149_mock",
    "C149_kem_refuted"
   ],
   "note": "RSA and key agreement in version 2, every key in version 3. Refuted part: a KEM key in version 2 is never answered because the ciphertext is not handed over (C149_kem_refuted). Hybrid KEM keys are not modelled."
  },
  {
   "property": "C150",
   "status": "proved",
   "theorems": [
    "C150_client",
    "C150_version",
    "C150_recipient"
   ],
   "note": "Exact, decryption and codecs as parameters."
  },
  {
   "property": "C151",
   "status": "partial",
   "theorems": [
    "C151_witness",
    "C151_no_witness",
    "C151_checked_refuted",
    "C151_plain",
    "C151_encrypted",
    "C151_number"
   ],
   "note": "Refuted part: the end entity never checks the witness (C151_checked_refuted). Note: the CA certificate is not used for the name in version 2 (C151_plain)."
  },
  {
   "property": "C152",
   "status": "partial",
   "theorems": [
    "C152_open",
    "C152_key",
    "C152_key_choice",
    "C152_concurrent_refuted"
   ],
   "note": "Refuted part: while a challenge is open no challenge of version 3 is sent, because the table of challenges is handed over as the value of the challenge (C152_concurrent_refuted). The transitions of the whole Mock CA (C01 and following) take the outcome of this step as a parameter."
  },
  {
   "property": "C153",
   "status": "partial",
   "theorems": [
    "C153_validated",
    "C153_prepared",
    "C153_accepted_refuted"
   ],
   "note": "Exact for the code. Refuted part: the hash compared is that of the OOBCertHash itself, so a prepared hash is never accepted (C153_accepted_refuted)."
  },
  {
   "property": "C154",
   "status": "partial",
   "theorems": [
    "C154_accepted",
    "C154_repeatable_refuted",
    "C154_effect",
    "C154_ca_pubs_refuted",
    "C154_ir_as_cr_refuted",
    "C154_status_refuted"
   ],
   "note": "Exact. Refuted parts: the check takes the certificate out of the message, so it cannot be repeated and the certificate cannot be read afterwards (C154_repeatable_refuted); caPubs are accepted in a cp and after an ir used as cr (C154_ca_pubs_refuted, C154_ir_as_cr_refuted); the status is always that of the first response (C154_status_refuted). The effect of reading an alternative of a pyasn1 Choice is an assumption of the model."
  },
  {
   "property": "C155",
   "status": "partial",
   "theorems": [
    "C155_structure",
    "C155_private_key",
    "C155_encrypted",
    "C155_certificate",
    "C155_certificate_kept",
    "C155_encrypted_lost_refuted",
    "C155_ca_pubs",
    "C155_structure_effect",
    "C155_structure_drops_refuted"
   ],
   "note": "Exact. Refuted part: the check of the structure drops a plain certificate (C155_structure_drops_refuted), and asking for the certificate of a response with an encrypted one loses it (C155_encrypted_lost_refuted). Note: caPubs are checked with the certificate of the first response whatever the index (C155_ca_pubs)."
  },
  {
   "property": "C156",
   "status": "partial",
   "theorems": [
    "C156_cross",
    "C156_confirmation",
    "C156_confirm_cross_refuted"
   ],
   "note": "Exact; the comparison of protection algorithms is that of the properties on protection and a parameter here. Refuted part: a confirmation after a ccp is always refused (C156_confirm_cross_refuted)."
  },
  {
   "property": "C157",
   "status": "partial",
   "theorems": [
    "C157_accepted",
    "C157_revoked",
    "C157_unchecked_refuted",
    "C157_names_refuted",
    "C157_delta_key_refuted",
    "C157_updated_refuted",
    "C157_both_refuted"
   ],
   "note": "The exact condition is proved (C157_accepted). Refuted parts: catalyst and composite certificates are never checked (C157_unchecked_refuted), related certificates and certificate discovery are always refused because the kinds are misspelt (C157_names_refuted), the answer for the delta key is dropped (C157_delta_key_refuted), updated Sun certificates pass (C157_updated_refuted), and the argument used_both_certs has no effect (C157_both_refuted)."
  },
  {
   "property": "C158",
   "status": "partial",
   "theorems": [
    "C158_accepted",
    "C158_refused",
    "C158_delta_key",
    "C158_delta_key_refused",
    "C158_request_refuted"
   ],
   "note": "Exact. Refuted part: in a request with several signatures only a chameleon certificate is checked (C158_request_refuted)."
  },
  {
   "property": "C159",
   "status": "partial",
   "theorems": [
    "C159_made",
    "C159_step",
    "C159_success",
    "C159_kem_refuted",
    "C159_bad_signature_refuted",
    "C159_locations_refuted"
   ],
   "note": "Exact; the builders of certificates are parameters. Refuted parts: a key to encrypt is not possible in a cr or kur (C159_kem_refuted), a bad signature is not made for it (C159_bad_signature_refuted), and the locations are not used for a CSR (C159_locations_refuted)."
  },
  {
   "property": "C160",
   "status": "partial",
   "theorems": [
    "C160_mac",
    "C160_signature",
    "C160_traditional",
    "C160_serial",
    "C160_serial_total",
    "C160_unique_refuted"
   ],
   "note": "Exact. Refuted part: after a hundred numbers that are in use the last one is taken (C160_unique_refuted), and the entry of the other certificate is replaced."
  },
  {
   "property": "C161",
   "status": "partial",
   "theorems": [
    "C161_issued",
    "C161_answers",
    "C161_failed",
    "C161_revoked",
    "C161_confirmation",
    "C161_revocation",
    "C161_unprotected_refuted",
    "C161_kinds_refuted",
    "C161_kem_refuted",
    "C161_published_refuted"
   ],
   "note": "Exact for requests that pass. Refuted parts: requests without protection, with certain signers and for keys to encrypt in a cr or kur are not answered (C161_unprotected_refuted, C161_kinds_refuted, C161_kem_refuted), and a certificate stays published when its response cannot be protected (C161_published_refuted). The effects of the handlers of certConf and rr are those of the properties on the Mock CA."
  },
  {
   "property": "C162",
   "status": "partial",
   "theorems": [
    "C162_accepted",
    "C162_looked_at",
    "C162_others",
    "C162_override_refuted",
    "C162_dropped_refuted"
   ],
   "note": "The acceptance and the result are exact (C162_accepted, C162_looked_at, C162_others). Refuted parts: the extension of the request wins over that of the CA, against the documentation (C162_override_refuted), and extensions of the request of other types are dropped without an error (C162_dropped_refuted). The checks of single extensions are parameters."
  },
  {
   "property": "C163",
   "status": "partial",
   "theorems": [
    "C163_accepted",
    "C163_ca_refuted",
    "C163_aki_refuted"
   ],
   "note": "Exact. Refuted parts: the field cA is never looked at (C163_ca_refuted), and the authority key identifier may be any (C163_aki_refuted). That a decoded field with a default has a value, and that a pyasn1 structure is not equal to bytes, are assumptions of the model."
  },
  {
   "property": "C164",
   "status": "partial",
   "theorems": [
    "C164_password",
    "C164_expand",
    "C164_double_refuted",
    "C164_cut_refuted"
   ],
   "note": "Exact for passwords that are byte strings (C164_password, C164_expand). Refuted part: different passwords do not give different keys (C164_double_refuted, C164_cut_refuted). Passwords that are text, which are repeated before hexadecimal notation is decoded, are not modelled."
  },
  {
   "property": "C165",
   "status": "partial",
   "theorems": [
    "C165_kind",
    "C165_unwraps",
    "C165_made",
    "C165_refused",
    "C165_unsupported_refuted",
    "C165_password_refuted",
    "C165_parse"
   ],
   "note": "Exact (C165_made, C165_kind, C165_unwraps, C165_refused). Refuted parts: a key of an unsupported type is accepted and not used if there is a password (C165_unsupported_refuted); a password beside a supported key has no effect (C165_password_refuted). That the single builders wrap the key they are given is a hypothesis; it is the subject of the properties about EnvelopedData."
  },
  {
   "property": "C166",
   "status": "partial",
   "theorems": [
    "C166_opens",
    "C166_key",
    "C166_option",
    "C166_rid",
    "C166_own_rid",
    "C166_given_partial",
    "C166_given_refuted",
    "C166_version_refuted",
    "C166_version",
    "C166_given_kept",
    "C166_no_certificate"
   ],
   "note": "Proved for recipient infos that are made by the call (C166_opens, C166_key, C166_rid, C166_own_rid, C166_option) and for those of the caller with their key (C166_given_partial). Refuted parts: with a recipient info of the caller and no key the content is encrypted with a new random key that no recipient has (C166_given_refuted); the version is 0 for KEM and password recipient infos, where RFC 5652 asks for 3 (C166_version_refuted)."
  },
  {
   "property": "C167",
   "status": "partial",
   "theorems": [
    "C167_accepted",
    "C167_first",
    "C167_position",
    "C167_pss_refuted",
    "C167_sender_refuted"
   ],
   "note": "Exact for messages with a signature algorithm (C167_accepted, C167_first, C167_position). Refuted parts: messages signed with RSASSA-PSS, which is in the table of algorithms, are refused although their protection verifies, because the search for the certificate uses the other padding (C167_pss_refuted); with the default settings the sender may be any name (C167_sender_refuted). The verifications of signatures and the check of the field protectionAlg are parameters."
  }
 ]
}