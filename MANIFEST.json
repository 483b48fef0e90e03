{
 "claims": [
  {
   "property": "C01",
   "status": "proved",
   "theorems": [
    "C01_get_returns_last_insert"
   ],
   "note": ""
  },
  {
   "property": "C02",
   "status": "proved",
   "theorems": [
    "C02_root_is_from_scratch_commitment"
   ],
   "note": ""
  },
  {
   "property": "C03",
   "status": "proved",
   "theorems": [
    "C03_history_independence",
    "C03_same_proof"
   ],
   "note": ""
  },
  {
   "property": "C04",
   "status": "proved",
   "theorems": [
    "C04_insert_never_panics"
   ],
   "note": ""
  },
  {
   "property": "C05",
   "status": "proved",
   "theorems": [
    "C05_reinsert_is_noop",
    "C05_zero_value_is_real"
   ],
   "note": ""
  },
  {
   "property": "C06",
   "status": "proved",
   "theorems": [
    "C06_tree_structure"
   ],
   "note": ""
  },
  {
   "property": "C07",
   "status": "proved",
   "theorems": [
    "C07_metadata_coherent"
   ],
   "note": ""
  },
  {
   "property": "C08",
   "status": "proved",
   "theorems": [
    "C08_batching_unobservable"
   ],
   "note": ""
  },
  {
   "property": "C09",
   "status": "partial",
   "theorems": [
    "C09_disk_trie_like_memory_trie_partial",
    "C09_spread_stems_settle",
    "C09_last_opening",
    "C09_unsettled_insertion_lost",
    "C09_stale_read_refuted",
    "C09_wrong_root_refuted"
   ],
   "note": "The full statement is false of the code: below depth 4 the cache serves stale leaves (any group), and updating a flushed leaf gives a wrong root. Proved for all interleavings of insert/flush/reopen that do not change a flushed value and that leave alone, until the next opening, a 4-byte prefix two stems came to share since the last one (C09_spread_stems_settle: in particular when stems differ within 4 bytes). An insertion outside that class panics or is lost (C09_unsettled_insertion_lost); histories that change flushed values are settled exactly by C67."
  },
  {
   "property": "C10",
   "status": "proved",
   "theorems": [
    "C10_flush_transparent",
    "C10_flush_transparent_any_state",
    "C10_flush_order_irrelevant"
   ],
   "note": "Encodings must decode (CodecLaws): true of representatives in the prime-order subgroup, see C11_undecodable_stem_panics."
  },
  {
   "property": "C11",
   "status": "partial",
   "theorems": [
    "C11_crash_recovers_last_flush_partial",
    "C11_insert_is_a_sequence_of_writes",
    "C11_crash_before_first_flush",
    "C11_crash_recovers_flushed_insertions_partial",
    "C11_reads_change_on_reopen_refuted",
    "C11_undecodable_stem_panics"
   ],
   "note": "Full statement false: right after a flush the cache can answer an older value than the reopened database. Proved: the disk holds exactly the last flushed state at every crash point, and reopened reads equal the flushed reads with the cache set aside."
  },
  {
   "property": "C12",
   "status": "partial",
   "theorems": [
    "C12_memory_listing",
    "C12_disk_listing_partial",
    "C12_disk_listing_exact",
    "C12_one_session_partial",
    "C12_one_session_stem_partial",
    "C12_one_session_stem_refuted",
    "C12_branch_listing_refuted",
    "C12_listing_after_reopen_refuted"
   ],
   "note": "Holds for MemoryDb. False for VerkleDb: when a listing agrees with the lookups is characterised exactly, and in one session from an empty path every branch except those at depth 4 lists its children, and every stem whose first four bytes no other inserted stem has lists its leaves correctly."
  },
  {
   "property": "C13",
   "status": "proved",
   "theorems": [
    "C13_disk_keys_injective",
    "C13_write_is_local",
    "C13_write_reads_back"
   ],
   "note": ""
  },
  {
   "property": "C14",
   "status": "partial",
   "theorems": [
    "C14_records_round_trip",
    "C14_stem_meta_rejects_partial",
    "C14_branch_meta_refuted",
    "C14_stem_records_exactly",
    "C14_branch_records_exactly_partial",
    "C14_child_records_exactly_partial",
    "C14_store_lookups_exactly_partial"
   ],
   "note": "Round trips and stem records proved; BranchMeta::from_bytes panics on short and accepts long input. The exact outcome of every decoder, and of every lookup in a store with arbitrary contents, is proved."
  },
  {
   "property": "C15",
   "status": "proved",
   "theorems": [
    "C15_hint_round_trip",
    "C15_hint_injective",
    "C15_prover_hints_fit",
    "C15_depth_32_lost"
   ],
   "note": "For every hint with depths up to 31, which includes every hint the prover makes."
  },
  {
   "property": "C16",
   "status": "partial",
   "theorems": [
    "C16_hint_read_panics_refuted",
    "C16_hint_read_total_partial"
   ],
   "note": "The full statement is false: status bits 3 panic. The exact outcome for every byte string is proved."
  },
  {
   "property": "C17",
   "status": "proved",
   "theorems": [
    "C17_proof_round_trip",
    "C17_proof_injective",
    "C17_created_proof_round_trip"
   ],
   "note": ""
  },
  {
   "property": "C18",
   "status": "proved",
   "theorems": [
    "C18_ipa_length",
    "C18_ipa_round_trip",
    "C18_ipa_accepted_is_encoding",
    "C18_multipoint_round_trip",
    "C18_multipoint_accepted_is_encoding",
    "C18_ipa_uncompressed",
    "C18_multipoint_uncompressed",
    "C18_ipa_accepts_overlong_refuted",
    "C18_ipa_wrong_length_panics"
   ],
   "note": "Acceptance is for inputs below 4 GiB; the length test is modulo 2^32 and an over-long input is accepted."
  },
  {
   "property": "C43",
   "status": "proved",
   "theorems": [
    "C43_crs_round_trip"
   ],
   "note": ""
  },
  {
   "property": "C19",
   "status": "proved",
   "theorems": [
    "C19_path_lookup"
   ],
   "note": ""
  },
  {
   "property": "C20",
   "status": "proved",
   "theorems": [
    "C20_prover_openings_true"
   ],
   "note": ""
  },
  {
   "property": "C21",
   "status": "partial",
   "theorems": [
    "C21_honest_queries_partial",
    "C21_honest_proof_panics_exactly",
    "C21_honest_proof_refuted",
    "C21_honest_proof_accepted_partial",
    "C21_created_proof_accepted_partial",
    "C21_check_panics"
   ],
   "note": "False in general: equal neighbouring commitments are merged by the prover and the check panics. Proved for the whole check whenever the opened commitments are distinguishable and the challenges are usable, and proved to panic whenever they are not distinguishable."
  },
  {
   "property": "C22",
   "status": "proved",
   "theorems": [
    "C22_absent_stem_has_no_value",
    "C22_absent_stem_refused"
   ],
   "note": ""
  },
  {
   "property": "C23",
   "status": "partial",
   "theorems": [
    "C23_present_key_hidden_refuted",
    "C23_value_forged_refuted",
    "C23_hidden_key_passes_check_refuted",
    "C23_forged_value_passes_check_refuted",
    "C23_coherent_claims_true_partial",
    "C23_accepted_claims_true_partial",
    "C23_double_opening_partial",
    "C23_scalars_apart_partial",
    "C23_created_claims_coherent_partial",
    "C23_repeated_key_refuted",
    "C23_two_stems_in_a_slot_refuted",
    "C23_occupied_empty_slot_refuted",
    "C23_stem_as_other_refuted",
    "C23_claim_below_claim_refuted",
    "C23_ideal_or_event",
    "C23_accepted_true_or_event_partial",
    "C23_default_true_or_event_partial",
    "C23_check_true_or_event_partial"
   ],
   "note": "The full statement is false in every group: seven kinds of accepted falsehoods are proved. True and proved: if the keys differ and the claims of the proof fit one tree, as they do in every created proof, then every claimed value is the one in the tree, except that a present stem can be hidden by a deeper empty slot. The idealisation (no double openings, no hash collisions among the commitments at hand) is explicit; C23_accepted_true_or_event_partial and its default-curve form replace it by explicit events."
  },
  {
   "property": "C24",
   "status": "partial",
   "theorems": [
    "C24_well_formed_no_panic_partial",
    "C24_no_statuses_refuted",
    "C24_depth_zero_refuted",
    "C24_depth_32_refuted",
    "C24_missing_commitment_refuted",
    "C24_superfluous_stem_refuted",
    "C24_queries_exactly",
    "C24_check_panics_exactly",
    "C24_refused_exactly",
    "C24_refused_answer",
    "C24_in_order_exactly",
    "C24_in_order_well_formed",
    "C24_check_exactly",
    "C24_multipoint_check_panics_exactly",
    "C24_read_then_check",
    "C24_created_well_formed"
   ],
   "note": "The full statement is false. The inputs on which the check does not panic are characterised exactly, for every proof, key list and value list (C24_check_exactly)."
  },
  {
   "property": "C27",
   "status": "proved",
   "theorems": [
    "C27_inner_product_proof_accepted"
   ],
   "note": ""
  },
  {
   "property": "C28",
   "status": "proved",
   "theorems": [
    "C28_verifiers_agree",
    "C28_wrong_rounds_rejected"
   ],
   "note": ""
  },
  {
   "property": "C29",
   "status": "proved",
   "theorems": [
    "C29_multipoint_proof_accepted",
    "C29_created_proof_accepted",
    "C29_prover_panics_exactly",
    "C29_order_irrelevant"
   ],
   "note": ""
  },
  {
   "property": "C30",
   "status": "proved",
   "theorems": [
    "C30_weights",
    "C30_evaluation_outside",
    "C30_evaluation_inside",
    "C30_division",
    "C30_every_vector"
   ],
   "note": ""
  },
  {
   "property": "C42",
   "status": "proved",
   "theorems": [
    "C42_challenges_are_hashes",
    "C42_inputs_bind",
    "C42_last_challenge_binds",
    "C42_multipoint_inputs",
    "C42_multipoint_queries_bound",
    "C42_multipoint_challenge_binds",
    "C42_label_hashed",
    "C42_label_bound"
   ],
   "note": ""
  },
  {
   "property": "C25",
   "status": "partial",
   "theorems": [
    "C25_stateless_update_partial",
    "C25_update_exactly",
    "C25_empty_slot_refuted"
   ],
   "note": "Proved for existing values, new suffixes and new stems next to other stems, for every accepted honest proof and every iteration order. The fourth case of the claim, a new stem in an empty slot, is false: the update panics, proved for every tree. C25_update_exactly lists the three possible outcomes (duplicate keys, new root, panic) for every list of keys and every list of new values."
  },
  {
   "property": "C26",
   "status": "partial",
   "theorems": [
    "C26_duplicate_keys_rejected",
    "C26_only_verified_updates",
    "C26_bad_proof_rejected",
    "C26_no_length_error_refuted",
    "C26_trailing_ignored_refuted",
    "C26_missing_ignored_refuted"
   ],
   "note": "Duplicate keys are rejected and new roots need an accepted proof. The length checks never fire (bitwise ! on usize), so the claims about lengths are false."
  },
  {
   "property": "C31",
   "status": "proved",
   "theorems": [
    "C31_digits_exact",
    "C31_windowed_product",
    "C31_window_25_refuted"
   ],
   "note": "Windows of 1 to 24 bits; the committer uses 16. With 25 bits a digit is wrong."
  },
  {
   "property": "C32",
   "status": "proved",
   "theorems": [
    "C32_committer_exists",
    "C32_commit_is_combination",
    "C32_scalar_mul",
    "C32_commit_sparse",
    "C32_commit_sparse_out_of_range",
    "C32_additive",
    "C32_delta_update"
   ],
   "note": ""
  },
  {
   "property": "C33",
   "status": "proved",
   "theorems": [
    "C33_context",
    "C33_commit",
    "C33_update",
    "C33_update_sparse",
    "C33_sparse_request",
    "C33_add",
    "C33_root_round_trip",
    "C33_update_history"
   ],
   "note": ""
  },
  {
   "property": "C34",
   "status": "partial",
   "theorems": [
    "C34_commit_to_scalars_partial",
    "C34_sparse_request_partial",
    "C34_update_bad_scalar_refuted",
    "C34_update_short_refuted",
    "C34_update_bad_index_refuted",
    "C34_create_proof_length_partial",
    "C34_create_proof_element_refuted",
    "C34_create_proof_empty_refuted",
    "C34_verify_proof_length_partial",
    "C34_verify_proof_short_refuted",
    "C34_verify_proof_undecodable_refuted",
    "C34_update_sparse_exactly_partial",
    "C34_create_proof_exactly_partial",
    "C34_create_proof_records_partial",
    "C34_verify_proof_exactly_partial"
   ],
   "note": "Proved in full for commit_to_scalars. The other entry points panic on the inputs named in the refuting theorems, so the full statement is false; their exact outcome (value, error or panic) is proved for every input."
  },
  {
   "property": "C45",
   "status": "proved",
   "theorems": [
    "C45_prover_query",
    "C45_prover_query_uncompressed",
    "C45_verifier_query",
    "C45_verifier_query_uncompressed",
    "C45_prover_query_canonical",
    "C45_verifier_query_canonical",
    "C45_create_proof",
    "C45_verify_proof",
    "C45_create_proof_canonical",
    "C45_verify_proof_canonical",
    "C45_created_proof_accepted"
   ],
   "note": ""
  },
  {
   "property": "C35",
   "status": "proved",
   "theorems": [
    "C35_batch",
    "C35_batch_any",
    "C35_commitments",
    "C35_commitments_any",
    "C35_hash_representative",
    "C35_off_curve"
   ],
   "note": "Elements are extended coordinates of curve points over an abstract base field with non-square coefficients. arkworks' batch_inversion is taken as inverting every non-zero entry. Off the curve, where y can be 0, hashing one by one panics and the batch gives 0 (C35_off_curve)."
  },
  {
   "property": "C40",
   "status": "partial",
   "theorems": [
    "C40_equality",
    "C40_equal_iff_encodings_equal",
    "C40_round_trip",
    "C40_canonical",
    "C40_decoding_total",
    "C40_decoded_elements_valid",
    "C40_outside_subgroup_rejected",
    "C40_short_rejected",
    "C40_longer_accepted_refuted",
    "C40_uncompressed_round_trip",
    "C40_uncompressed_injective",
    "C40_uncompressed_not_canonical",
    "C40_stream_round_trip",
    "C40_stream_canonical",
    "C40_stream_uncompressed",
    "C40_stream_uncompressed_refuted"
   ],
   "note": "Proved for 32-byte inputs and for the compressed form. Two parts are false and refuted: from_bytes also accepts longer slices, ignoring all but the last 32 bytes, and an element whose stored representative is not of prime order cannot be read back through deserialize_uncompressed."
  },
  {
   "property": "C41",
   "status": "proved",
   "theorems": [
    "C41_field_map",
    "C41_field_value",
    "C41_zero",
    "C41_sum_of_representatives",
    "C41_scalar_map",
    "C41_scalar_value",
    "C41_scalar_zero"
   ],
   "note": "map_to_scalar_field reduces x/y modulo the smaller scalar field; distinctness is claimed and proved for x/y only."
  },
  {
   "property": "C47",
   "status": "proved",
   "theorems": [
    "C47_reference_string",
    "C47_prefix",
    "C47_element_of_hash",
    "C47_stops_only_on_duplicates"
   ],
   "note": "The unbounded search is modelled with fuel; results do not depend on it. SHA-256 is a parameter; overflow of the 64-bit index is not modelled."
  },
  {
   "property": "C36",
   "status": "partial",
   "theorems": [
    "C36_chunks_partial",
    "C36_payload",
    "C36_empty_refuted",
    "C36_extra_chunk_refuted"
   ],
   "note": "For non-empty code the chunks are those specified, plus one chunk of zeros exactly when a PUSH32 is the last byte before the last chunk, so the count claim is false there. Empty code panics with overflow checks on and gives no chunks otherwise."
  },
  {
   "property": "C37",
   "status": "partial",
   "theorems": [
    "C37_storage_slot_partial",
    "C37_large_key_panics_refuted",
    "C38_positions_distinct",
    "C38_positions_range"
   ],
   "note": "Holds for keys below 2^256 - 2^248; for the rest the position overflows and the code panics, so 'never panics' is false."
  },
  {
   "property": "C38",
   "status": "proved",
   "theorems": [
    "C38_code_chunk",
    "C38_code_chunk_overflow",
    "C38_header",
    "C38_keys_distinct",
    "C38_group_distinct",
    "C38_positions_distinct",
    "C38_positions_range",
    "C38_huge_chunk_refuted"
   ],
   "note": "For chunk numbers below 2^248 - 64 (code of that length cannot exist); beyond, chunk numbers run into storage positions, shown by C38_huge_chunk_refuted. Keys of different groups are distinct unless the two hash inputs collide."
  },
  {
   "property": "C39",
   "status": "proved",
   "theorems": [
    "C39_chunk64",
    "C39_chunk_bytes",
    "C39_chunk_bytes_too_long",
    "C39_input_injective",
    "C39_address",
    "C39_scalars_injective",
    "C39_hash64",
    "C39_hash64_collision",
    "C39_tree_key"
   ],
   "note": "The scalar field is abstract: injectivity of scalars is up to two different integers below 2^128 having the same scalar."
  },
  {
   "property": "C44",
   "status": "proved",
   "theorems": [
    "C44_hex",
    "C44_hex_unique",
    "C44_hex_written",
    "C44_parsed",
    "C44_parsed_round_trip",
    "C44_keys",
    "C44_aligned",
    "C44_conversion",
    "C44_round_trip",
    "C44_verifier",
    "C44_accepted",
    "C44_new_values_unchecked",
    "C44_malformed_panics_refuted",
    "C44_honest_witness_partial"
   ],
   "note": "The JSON parser is a parameter. Invalid points give None as stated, unless a bad status byte or a non-canonical final scalar panics first; C44_conversion lists all cases. New values are never checked. C44_honest_witness_partial inherits the conditions of C21."
  },
  {
   "property": "C48",
   "status": "proved",
   "theorems": [
    "C48_create_proof",
    "C48_verify_proof",
    "C48_created_proofs_accepted",
    "C48_uncompressed_create",
    "C48_uncompressed_verify",
    "C48_multi_scalar_mul",
    "C48_multi_scalar_mul_bad_scalar_refuted",
    "C48_pedersen_hash"
   ],
   "note": "Buffers are modelled as byte lists, so pointer validity is outside the model. Findings: bytes after the last whole scalar and scalars after the 256th are silently ignored by multi_scalar_mul, and a string that is no scalar aborts the caller (the _refuted theorem)."
  },
  {
   "property": "C49",
   "status": "partial",
   "theorems": [
    "C49_commit",
    "C49_commit_exception",
    "C49_update_sparse",
    "C49_one_point",
    "C49_many_points",
    "C49_sizes_exception",
    "C49_undecodable_refuted",
    "C49_update_bad_scalar_refuted",
    "C49_verifier",
    "C49_accepted",
    "C49_wrong_size_value_refuted",
    "C49_null_panics_refuted",
    "C49_honest_proof_partial",
    "C49_accepted_true_or_event_partial",
    "C49_says_unique"
   ],
   "note": "All functions are covered. The claim fails in three places, shown by the _refuted theorems: arrays of the right size that do not decode abort instead of throwing, a value whose size is not 32 counts as absent in verifyPreStateRoot, and null elements abort. The honest-proof theorem needs usable challenges and distinguishable keys, as C21. Copying arrays between Java and Rust is taken to succeed."
  },
  {
   "property": "C46",
   "status": "proved",
   "theorems": [
    "C46_ipa_equation",
    "C46_multipoint_equation",
    "C46_ipa_extraction",
    "C46_multipoint_extraction",
    "C46_whole_proof_extraction"
   ],
   "note": "Special soundness: 4 challenges per round, 2 values of w, 2n of t, one of r per query. The forking argument that obtains such runs from one prover in the random oracle model, with its probabilities, is not modelled. In the whole-proof theorem the hint and commitments are the prover's first message."
  },
  {
   "property": "C50",
   "status": "partial",
   "theorems": [
    "C50_accepted_strings",
    "C50_read_proofs_fit",
    "C50_panics_exactly",
    "C50_truncated_refuted",
    "C50_trailing_refuted",
    "C50_second_encoding_refuted"
   ],
   "note": "The full statement is false: truncated and lengthened encodings panic and bit 2 of the status bytes is ignored. The strings that are accepted, rejected and panicked on are characterised exactly, for strings shorter than 2^32 bytes."
  },
  {
   "property": "C51",
   "status": "partial",
   "theorems": [
    "C51_same_proofs_partial",
    "C51_accepted_partial",
    "C51_changed_value_refuted",
    "C51_deep_key_refuted"
   ],
   "note": "The full statement is false, as C09 is: after changing a flushed value, or a key below depth 4, the prover opens commitments falsely. Proved for the histories of C09; acceptance under the conditions of C21. C69 describes exactly what the prover opens after flushed values changed."
  },
  {
   "property": "C52",
   "status": "proved",
   "theorems": [
    "C52_read_back",
    "C52_root_of_state",
    "C52_code_read_back",
    "C52_library_hash"
   ],
   "note": "For every hash that gives 32 bytes, with the collisions named; items in the range where keys exist (C37, C38). Code is not empty (C36_empty_refuted)."
  },
  {
   "property": "C53",
   "status": "proved",
   "theorems": [
    "C53_closed",
    "C53_sum_of_points",
    "C53_respects_equality",
    "C53_equality_is_an_equivalence",
    "C53_commutative",
    "C53_associative",
    "C53_zero",
    "C53_inverse",
    "C53_difference",
    "C53_sum_order",
    "C53_sum_split",
    "C53_product_counts",
    "C53_products",
    "C53_multi_scalar_mul_panics",
    "C53_multi_scalar_mul_value",
    "C53_multi_scalar_mul_linear",
    "C53_outside_subgroup_refuted"
   ],
   "note": "From the laws of the base field, -1 being a square, and the order of the group. arkworks' formulas are written out; its msm is taken at its meaning. C53_outside_subgroup_refuted: for points outside the subgroup, which from_bytes_unchecked_uncompressed lets in, sums can be invalid elements."
  },
  {
   "property": "C54",
   "status": "proved",
   "theorems": [
    "C54_group",
    "C54_parameters",
    "C54_record_encoding",
    "C54_wire_encoding",
    "C54_equality",
    "C54_operations",
    "C54_every_member",
    "C54_hash",
    "C54_bytes",
    "C54_bytes_read"
   ],
   "note": "Shows that the laws assumed elsewhere of the group, the hash and the encodings hold of the curve."
  },
  {
   "property": "C55",
   "status": "proved",
   "theorems": [
    "C55_update",
    "C55_update_sparse",
    "C55_add",
    "C55_readable",
    "C55_default_context",
    "C55_default_update",
    "C55_default_update_sparse",
    "C55_default_add",
    "C55_default_readable",
    "C55_update_history",
    "C55_default_update_history"
   ],
   "note": "Exact in every case and over any number of updates, first for any generators and then for the default ones on the real curve. C33 states the same functions up to the choice of coordinates."
  },
  {
   "property": "C56",
   "status": "partial",
   "theorems": [
    "C56_reopen_partial",
    "C56_reopen_panics_refuted",
    "C56_default_reopen_partial",
    "C56_root_always",
    "C56_history_partial",
    "C56_reopen_exactly"
   ],
   "note": "The statement is false. When the root cannot be read back is characterised after any operations, by its coordinates; the first insertion after reopening a trie with one key, exactly; for the histories of C09 the trie answers like the one in memory or panics on a record its reader refuses."
  },
  {
   "property": "C57",
   "status": "proved",
   "theorems": [
    "C57_written_back",
    "C57_panics_exactly",
    "C57_default_loads",
    "C57_default_elements",
    "C57_default_not_zero",
    "C57_default_unreadable"
   ],
   "note": "126 of the 257 default points are not of prime order. The hex decoding of default_crs.rs is done in Coq's numerals."
  },
  {
   "property": "C58",
   "status": "proved",
   "theorems": [
    "C58_constants",
    "C58_laws",
    "C58_cyclic",
    "C58_multiples_differ",
    "C58_hypotheses",
    "C58_created_proof_accepted"
   ],
   "note": "The constants come from an external crate; the repository's test vectors agree with them (Bander.v). Primality by certificates, the order by one multiple and a bound on the number of points."
  },
  {
   "property": "C59",
   "status": "proved",
   "theorems": [
    "C59_any_generators",
    "C59_trie",
    "C59_tables",
    "C59_same_root",
    "C59_disk",
    "C59_default_generators"
   ],
   "note": "Any generators given by coordinates, and those of CRS::default. The trie on disk is compared with the trie over the group for every sequence of operations."
  },
  {
   "property": "C60",
   "status": "partial",
   "theorems": [
    "C60_honest_accepted_partial",
    "C60_check_of_elements",
    "C60_bytes_of_elements",
    "C60_end_to_end_partial",
    "C60_same_bytes",
    "C60_disk_partial",
    "C60_default_domain"
   ],
   "note": "Partial for the reasons of C21 (distinguishable), and on disk of C09 and C56. Everything else on coordinates is proved for any generators and hash."
  },
  {
   "property": "C61",
   "status": "partial",
   "theorems": [
    "C61_update_of_elements",
    "C61_stateless_partial",
    "C61_empty_slot_refuted"
   ],
   "note": "False for keys in empty slots, as C25 is."
  },
  {
   "property": "C62",
   "status": "partial",
   "theorems": [
    "C62_update_by_any_proof_partial",
    "C62_update_after_acceptance_partial",
    "C62_value_forgotten_refuted",
    "C62_update_or_event_partial"
   ],
   "note": "Proved under the conditions of C23: claims that fit one tree, openings that are known or extracted, and commitments, hashes, stems and values at hand that can be told apart. Without the condition on the claims it is false: a proof that lists the stem of a key as the other stem in its slot is accepted, and the update forgets the other values of that stem."
  },
  {
   "property": "C63",
   "status": "proved",
   "theorems": [
    "C63_root_hash_binds",
    "C63_root_hash_binds_apart",
    "C63_same_commitment_relation",
    "C63_default_root_hash_binds"
   ],
   "note": "The collision in the alternative is named: its vectors are those of nodes of the two tries. That such collisions are hard to find is the binding assumption on Pedersen commitments and is outside any model of this kind."
  },
  {
   "property": "C64",
   "status": "proved",
   "theorems": [
    "C64_proof_of_key_set",
    "C64_proof_of_contents",
    "C64_any_listing_accepted",
    "C64_disk_key_set_partial",
    "C64_coordinates_same_bytes",
    "C64_coordinates_any_listing"
   ],
   "note": "The equality for two listings on one trie has no conditions. Across iteration orders and for acceptance the challenge t must lie outside the domain, as in C29 and C21; on disk the histories are those of C09."
  },
  {
   "property": "C65",
   "status": "partial",
   "theorems": [
    "C65_honest_chain_partial",
    "C65_untrusted_chain_partial",
    "C65_chain_or_event_partial",
    "C65_coord_honest_chain_partial",
    "C65_coord_chain_or_event_partial"
   ],
   "note": "Complete for blocks from full nodes whose proofs the check accepts; writes to empty slots panic in the code (C25). For untrusted senders under the conditions of C23 and C62."
  },
  {
   "property": "C66",
   "status": "partial",
   "theorems": [
    "C66_witness_accepted_partial",
    "C66_witness_true_partial",
    "C66_witness_code_partial",
    "C66_honest_account_chain_partial",
    "C66_untrusted_account_chain_partial",
    "C66_witness_or_event_partial",
    "C66_account_chain_or_event_partial",
    "C66_coord_verdict",
    "C66_coord_witness_accepted_partial",
    "C66_coord_witness_or_event_partial",
    "C66_coord_honest_account_chain_partial",
    "C66_coord_account_chain_or_event_partial"
   ],
   "note": "Composition of C21, C23, C25, C44, C52 and C65; partial because it inherits the conditions of C21 (distinguishable commitments, usable challenges) and of C23 (coherent claims, idealised commitments, hidden keys)."
  },
  {
   "property": "C67",
   "status": "partial",
   "theorems": [
    "C67_exact_root_partial",
    "C67_right_root_partial",
    "C67_unchanged_counts_once",
    "C67_wrong_root_partial",
    "C67_first_change_partial",
    "C67_never_mended_partial",
    "C67_default_wrong_root_partial",
    "C67_coord_exact_root_partial"
   ],
   "note": "For settled histories (see C09); outside them C09_unsettled_insertion_lost. The wrong-root theorems give a different root hash or an explicit collision (C63), for fewer than 2^100 operations."
  },
  {
   "property": "C68",
   "status": "partial",
   "theorems": [
    "C68_refused",
    "C68_serialize",
    "C68_serialize_refuted",
    "C68_add",
    "C68_any_scale",
    "C68_hash",
    "C68_hash_batch",
    "C68_hash_refuted",
    "C68_add_commitments",
    "C68_add_refuted",
    "C68_update",
    "C68_update_sparse",
    "C68_update_refused",
    "C68_readable",
    "C68_on_commitments",
    "C68_deserialize"
   ],
   "note": "That such bytes are refused is false of the code: refuted for serialization, hash and sum. The exact outcome is proved for every string of 64 bytes, and equality with the functions of the other properties on the bytes of commitments. The points that verify_proof_uncompressed of the C binding reads are the subject of C72."
  },
  {
   "property": "C69",
   "status": "partial",
   "theorems": [
    "C69_openings_partial",
    "C69_untouched_accepted_partial",
    "C69_touched_false_partial",
    "C69_truth_partial",
    "C69_default_truth_partial",
    "C69_default_touched_false_partial",
    "C69_coord_untouched_accepted_partial",
    "C69_coord_touched_false_partial",
    "C69_coord_default_touched_refuted",
    "C69_coord_truth_partial"
   ],
   "note": "For settled histories (see C09) of fewer than 2^100 operations. Acceptance is under the conditions of C21; the last part is up to the exceptions of C23 (hidden stem, explicit event, explicit relation). On coordinates the prover may in addition panic on a refused record (C56)."
  },
  {
   "property": "C70",
   "status": "partial",
   "theorems": [
    "C70_refuted",
    "C70_totals_root_partial",
    "C70_root_totals_partial",
    "C70_memory_root_partial",
    "C70_default_refuted",
    "C70_default_root_totals_partial",
    "C70_default_memory_root_partial",
    "C70_coord_root_totals_partial",
    "C70_coord_memory_root_partial",
    "C70_coord_default_refuted",
    "C70_coord_default_root_totals_partial",
    "C70_coord_default_memory_root_partial"
   ],
   "note": "The statement for two tries on disk is false; what the root hash tells is proved exactly (both directions), and the statement against in-memory tries in full, for settled histories (see C09)."
  },
  {
   "property": "C71",
   "status": "partial",
   "theorems": [
    "C71_honest_clients",
    "C71_clients_partial",
    "C71_client_and_disk_partial",
    "C71_coord_honest_clients"
   ],
   "note": "Complete for blocks from full nodes that the check accepts. For untrusted senders the accepted blocks' claims must fit one tree and openings must be known, as in C65; the trie on disk is settled (see C09)."
  },
  {
   "property": "C72",
   "status": "partial",
   "theorems": [
    "C72_zero_refuted",
    "C72_on_commitments",
    "C72_prover"
   ],
   "note": "That only proofs of true claims are accepted is false of the code: refuted for every list of commitments. On inputs made of group elements the function is the one of the other properties. Not proved: which other claims can be forged."
  },
  {
   "property": "C73",
   "status": "proved",
   "theorems": [
    "C73_verify",
    "C73_create",
    "C73_created_accepted",
    "C73_unchecked_accepted"
   ],
   "note": "For every generators, hash function and order of the groups; acceptance assumes that the challenges for the openings are usable (outside 0..255, not zero), as in C45 and C48. C59_default_generators and C60_default_domain give the first two hypotheses for the default generators."
  },
  {
   "property": "C74",
   "status": "partial",
   "theorems": [
    "C74_memory_write_returns_old",
    "C74_disk_write_returns_exactly",
    "C74_disk_write_returns_old_refuted"
   ],
   "note": "True of the in-memory database. False of the database on disk: refuted, and what it returns is proved exactly, for every sequence of calls."
  }
 ]
}