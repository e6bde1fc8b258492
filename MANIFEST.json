{
 "claims": [
  {
   "property": "C01",
   "status": "proved",
   "theorems": [
    "C01_uint32_slice_roundtrip",
    "C01_decoding_drops_only_the_remainder"
   ],
   "note": "All inputs, no bound."
  },
  {
   "property": "C02",
   "status": "proved",
   "theorems": [
    "C02_matrix_roundtrip"
   ],
   "note": "Dimensions as uint32, entries as uint32."
  },
  {
   "property": "C03",
   "status": "proved",
   "theorems": [
    "C03_matrices_roundtrip"
   ],
   "note": "Lists of equally sized matrices."
  },
  {
   "property": "C04",
   "status": "proved",
   "theorems": [
    "C04_matrix128_roundtrip"
   ],
   "note": ""
  },
  {
   "property": "C05",
   "status": "proved",
   "theorems": [
    "C05_byte_to_bits_msb_first",
    "C05_byte_to_bits_injective"
   ],
   "note": ""
  },
  {
   "property": "C06",
   "status": "proved",
   "theorems": [
    "C06_proof_codec_roundtrip",
    "C06_generated_proof_has_advertised_length"
   ],
   "note": "Round trip for proofs with 32-byte hashes whose size fits the uint32 offsets; every generated proof has the advertised length."
  },
  {
   "property": "C07",
   "status": "proved",
   "theorems": [
    "C07_pad_block_unpad",
    "C07_signal_byte_unpad"
   ],
   "note": ""
  },
  {
   "property": "C08",
   "status": "partial",
   "theorems": [
    "C08_unpad_panics_exactly_on_zeros",
    "C08_unpad_never_panics_refuted"
   ],
   "note": "The property is false of the code: _refuted gives a witness, and the exact set of panicking inputs is proved."
  },
  {
   "property": "C09",
   "status": "proved",
   "theorems": [
    "C09_index_bijection"
   ],
   "note": ""
  },
  {
   "property": "C10",
   "status": "proved",
   "theorems": [
    "C10_rand_element_reduced",
    "C10_rand_vector_reduced"
   ],
   "note": "Streams are arbitrary readers; running out of fuel is excluded by the result being Some."
  },
  {
   "property": "C11",
   "status": "partial",
   "theorems": [
    "C11_conversion_partial",
    "C11_conversion_refuted"
   ],
   "note": "False of the code when a masked group equals 2^31-1 (_refuted); proved for all other groups (_partial)."
  },
  {
   "property": "C12",
   "status": "proved",
   "theorems": [
    "C12_negate_vector"
   ],
   "note": ""
  },
  {
   "property": "C13",
   "status": "proved",
   "theorems": [
    "C13_modulus_prime"
   ],
   "note": "Trial division evaluated in the kernel."
  },
  {
   "property": "C14",
   "status": "proved",
   "theorems": [
    "C14_fss_shares_sum_to_point_function",
    "C14_resampling_breaks_correctness_refuted"
   ],
   "note": "For an arbitrary block cipher, under the ghost flag saying that no conversion was resampled; the second theorem shows that this proviso is necessary."
  },
  {
   "property": "C15",
   "status": "proved",
   "theorems": [
    "C15_evaluation_range"
   ],
   "note": ""
  },
  {
   "property": "C16",
   "status": "partial",
   "theorems": [
    "C16_payload_hiding_refuted"
   ],
   "note": "False of the code: the trailing payload elements are readable in both keys, for every cipher and randomness."
  },
  {
   "property": "C17",
   "status": "partial",
   "theorems": [
    "C17_long_input_refuted",
    "C17_short_input_partial"
   ],
   "note": "False of the code: every longer input panics, for every generated key; shorter ones are evaluated, with shares of zero off the prefix."
  },
  {
   "property": "C18",
   "status": "proved",
   "theorems": [
    "C18_count_correct",
    "C18_whole_address_without_digest_collision"
   ],
   "note": "Under the ghost flag of C14 (no conversion resampled). Identifiers beyond 256 bits need ASCII e-mails, because position 256 is ignored by the evaluation (C67). The number of MAC keys is arbitrary below 19 (the code uses 0 and 4)."
  },
  {
   "property": "C19",
   "status": "proved",
   "theorems": [
    "C19_avg_correct"
   ],
   "note": "Both servers in the same year (see C70), at least one match, sums below 2^31-1, ghost flag of C14."
  },
  {
   "property": "C20",
   "status": "partial",
   "theorems": [
    "C20_avg_of_nothing_panics_refuted"
   ],
   "note": "False of the code for every database without match: division by zero."
  },
  {
   "property": "C21",
   "status": "proved",
   "theorems": [
    "C21_wrong_count_fixes_every_mac_key",
    "C21_wrong_count_first_server",
    "C21_wrong_count_any_words",
    "C21_tag_change_rejected",
    "C21_wrong_average_fixes_every_mac_key"
   ],
   "note": "End to end against the real honest answers. The bound counts values of the MAC key for a fixed offset; hiding of the MAC key from the server is not provable (and C16 shows the last one is sent in clear)."
  },
  {
   "property": "C22",
   "status": "partial",
   "theorems": [
    "C22_truncated_average_accepted_refuted"
   ],
   "note": "False of the code for every AVG query."
  },
  {
   "property": "C23",
   "status": "proved",
   "theorems": [
    "C23_point_answer_order",
    "C23_predicate_answer_order"
   ],
   "note": "Predicate and point parts."
  },
  {
   "property": "C24",
   "status": "partial",
   "theorems": [
    "C24_swapped_delivery_accepted_refuted"
   ],
   "note": "False of the code for every query: the negated count is accepted."
  },
  {
   "property": "C25",
   "status": "proved",
   "theorems": [
    "C25_email_identifiers_exact"
   ],
   "note": ""
  },
  {
   "property": "C26",
   "status": "partial",
   "theorems": [
    "C26_creation_date_is_november_30_refuted",
    "C26_year_query_misses_the_year_refuted",
    "C26_calendar"
   ],
   "note": "False of the code for every year; the calendar used by the model is characterised by C26_calendar."
  },
  {
   "property": "C27",
   "status": "partial",
   "theorems": [
    "C27_known_partial",
    "C27_unknown_algorithm_becomes_zero_refuted"
   ],
   "note": "False of the code for every unknown name; C27_known_partial: known kinds are answered."
  },
  {
   "property": "C28",
   "status": "proved",
   "theorems": [
    "C28_merkle_completeness",
    "C28_tree_construction_total"
   ],
   "note": "Any hash; up to 2^31 records (beyond, node numbers overflow uint32)."
  },
  {
   "property": "C29",
   "status": "partial",
   "theorems": [
    "C29_generation_exact",
    "C29_proof_is_for_last_fingerprint",
    "C29_duplicates_panic_refuted",
    "C29_fingerprint_collision_refuted"
   ],
   "note": "False of the code: duplicates panic for every hash, and a concrete FNV-1a collision gives an honest proof that cannot verify. Exact success condition proved."
  },
  {
   "property": "C30",
   "status": "proved",
   "theorems": [
    "C30_merkle_binding"
   ],
   "note": "Collision is between strings actually hashed by tree construction and by verification."
  },
  {
   "property": "C31",
   "status": "partial",
   "theorems": [
    "C31_verification_alone_refuted"
   ],
   "note": "False of the code, for every hash and every tree with two records or more."
  },
  {
   "property": "C32",
   "status": "proved",
   "theorems": [
    "C32_root_commits_to_records"
   ],
   "note": ""
  },
  {
   "property": "C33",
   "status": "proved",
   "theorems": [
    "C33_retrieval_secret_sharing",
    "C33_retrieval_two_servers",
    "C33_query_bytes",
    "C33_random_database"
   ],
   "note": "Secret sharing for every n >= 3; two servers given the DPF contract dpf_ok. log2 and byte order exact."
  },
  {
   "property": "C34",
   "status": "proved",
   "theorems": [
    "C34_perfect_privacy"
   ],
   "note": "Bijection between random strings and views of all servers but one, for every index; n >= 3. Two servers rely on the DPF and are not expressible (computational)."
  },
  {
   "property": "C35",
   "status": "partial",
   "theorems": [
    "C35_single_server_refuted",
    "C35_out_of_range_refuted",
    "C35_partial"
   ],
   "note": "False of the code; what is refused is stated in C35_partial."
  },
  {
   "property": "C36",
   "status": "proved",
   "theorems": [
    "C36_authenticated_retrieval"
   ],
   "note": "Database built by CreateRandomMerkle; ceil(log2) is exact in the model."
  },
  {
   "property": "C37",
   "status": "partial",
   "theorems": [
    "C37_substitution_refuted",
    "C37_forgery_refuted",
    "C37_integrity_partial"
   ],
   "note": "Substitution and 60-byte forgery are accepted; C37_integrity_partial states what holds for arbitrary answers."
  },
  {
   "property": "C38",
   "status": "partial",
   "theorems": [
    "C38_short_answer_refuted",
    "C38_merkle_answer_refuted",
    "C38_predicate_answer_refuted",
    "C38_partial"
   ],
   "note": "False of the code for point (both kinds) and predicate clients."
  },
  {
   "property": "C39",
   "status": "proved",
   "theorems": [
    "C39_answer_meaning",
    "C39_answer_linear",
    "C39_short_query"
   ],
   "note": ""
  },
  {
   "property": "C40",
   "status": "proved",
   "theorems": [
    "C40_product32",
    "C40_product128",
    "C40_binary_product",
    "C40_associative",
    "C40_mismatch_panics"
   ],
   "note": "C kernels as nested loops; out-of-range reads in C are a distinguished panic."
  },
  {
   "property": "C41",
   "status": "proved",
   "theorems": [
    "C41_lwe_correct",
    "C41_lwe_correct_default"
   ],
   "note": "End to end through bytes; noise bound and scaling secret as hypotheses, and derived from the samples for the deployed parameters."
  },
  {
   "property": "C42",
   "status": "partial",
   "theorems": [
    "C42_lwe_wrong_bit_refuted",
    "C42_lwe_wrong_bit_partial",
    "C42_default_bound_refuted",
    "C42_honest_error_count"
   ],
   "note": "False of the code for every honest setting with a small scaling secret; also the deployed bound does not cover the deployed sampler."
  },
  {
   "property": "C43",
   "status": "proved",
   "theorems": [
    "C43_lwe_cheating",
    "C43_any_server"
   ],
   "note": "End to end; deviation fixed independently of the scaling secret."
  },
  {
   "property": "C44",
   "status": "partial",
   "theorems": [
    "C44_lwe128_correct",
    "C44_lwe128_correct_default",
    "C44_lwe128_cheating",
    "C44_range32",
    "C44_range128_symmetric_refuted",
    "C44_any_server"
   ],
   "note": "Correctness and cheating bound proved; range symmetry false (two extra values), exact range proved."
  },
  {
   "property": "C45",
   "status": "partial",
   "theorems": [
    "C45_negative_noise_refuted",
    "C45_noise_partial",
    "C45_noise32",
    "C45_sample_bounded"
   ],
   "note": "False for every negative sample; exact stored value proved."
  },
  {
   "property": "C46",
   "status": "partial",
   "theorems": [
    "C46_random_size_refuted",
    "C46_random_partial",
    "C46_random128_size"
   ],
   "note": "False for the 32-bit version; exact size and contents proved."
  },
  {
   "property": "C47",
   "status": "partial",
   "theorems": [
    "C47_correction_refuted",
    "C47_correction_partial",
    "C47_no_error"
   ],
   "note": "False whenever the first symbol is wrong; exact success condition proved (C48)."
  },
  {
   "property": "C48",
   "status": "proved",
   "theorems": [
    "C48_majority"
   ],
   "note": ""
  },
  {
   "property": "C49",
   "status": "proved",
   "theorems": [
    "C49_amplify_correct",
    "C49_amplify_rejects",
    "C49_amplify_cheating"
   ],
   "note": "End to end through bytes, any number of repetitions."
  },
  {
   "property": "C50",
   "status": "partial",
   "theorems": [
    "C50_honest_run",
    "C50_few_scalars_fail",
    "C50_zero_row_refuted",
    "C50_generated_table",
    "C50_zero_row_spare_refuted"
   ],
   "note": "False for an all-zero row when the identity has a shorter encoding (NIST curves); proved for fixed-length encodings, and up to rows+2 blinding scalars otherwise."
  },
  {
   "property": "C51",
   "status": "proved",
   "theorems": [
    "C51_cheating_solves_diffie_hellman",
    "C51_at_most_one_scalar"
   ],
   "note": "Computational hardness itself is outside the model: the theorem is the reduction and the exact count."
  },
  {
   "property": "C52",
   "status": "partial",
   "theorems": [
    "C52_digests_in_row_order_partial",
    "C52_overshoot_refuted",
    "C52_many_rows_fit",
    "C52_square_tables_are_built",
    "C52_one_row_refuted"
   ],
   "note": "False whenever a worker starts beyond the last row (every one-row table); proved for every schedule otherwise."
  },
  {
   "property": "C53",
   "status": "proved",
   "theorems": [
    "C53_buckets",
    "C53_merkle_commits"
   ],
   "note": "Also: the Merkle variant commits to the same blocks."
  },
  {
   "property": "C54",
   "status": "partial",
   "theorems": [
    "C54_same_table",
    "C54_duplicates_refuted"
   ],
   "note": "False for duplicate identifiers; proved for distinct ones, for every sorting routine and iteration order."
  },
  {
   "property": "C55",
   "status": "partial",
   "theorems": [
    "C55_few_keys_refuted",
    "C55_equal_blocks_refuted",
    "C55_partial",
    "C55_large_partial"
   ],
   "note": "False below ten keys and for equal blocks (Merkle); proved for 10 to 2^35 keys."
  },
  {
   "property": "C56",
   "status": "partial",
   "theorems": [
    "C56_lookup",
    "C56_lookup_two",
    "C56_lookup_merkle",
    "C56_empty_bucket_refuted"
   ],
   "note": "Proved for stored identifiers, all three deployments; an identifier that hashes to an empty bucket crashes the client."
  },
  {
   "property": "C57",
   "status": "proved",
   "theorems": [
    "C57_freshest",
    "C57_unreadable"
   ],
   "note": "OpenPGP parsing is an input."
  },
  {
   "property": "C58",
   "status": "proved",
   "theorems": [
    "C58_every_call_gets_its_answer",
    "C58_own_answer"
   ],
   "note": "Transition system of callers, worker and queue; every schedule and cancellation pattern."
  },
  {
   "property": "C59",
   "status": "proved",
   "theorems": [
    "C59_worker_never_stuck",
    "C59_bounded_service"
   ],
   "note": "Also a bound of 32 worker moves on the service time of an admitted call."
  },
  {
   "property": "C60",
   "status": "partial",
   "theorems": [
    "C60_shutdown_refuted",
    "C60_shutdown_partial"
   ],
   "note": "False of the code (send on a closed channel); proved when no call is still before its send when the queue is closed."
  },
  {
   "property": "C61",
   "status": "partial",
   "theorems": [
    "C61_dimensions_compared_partial",
    "C61_agreement_accepted",
    "C61_root_not_compared_refuted",
    "C61_no_server_panics_refuted"
   ],
   "note": "Dimensions compared for every order of arrival; root, proof length and type are not; no server: panic."
  },
  {
   "property": "C62",
   "status": "proved",
   "theorems": [
    "C62_reads",
    "C62_same_matrix",
    "C62_dirty_buffer",
    "C62_buffered",
    "C62_int63"
   ],
   "note": "Keystream as an arbitrary function; bufio of the Go library modelled."
  },
  {
   "property": "C63",
   "status": "proved",
   "theorems": [
    "C63_square",
    "C63_vector"
   ],
   "note": "Exact square root."
  },
  {
   "property": "C64",
   "status": "proved",
   "theorems": [
    "C64_max_bytes_length",
    "C64_order_independent"
   ],
   "note": ""
  },
  {
   "property": "C65",
   "status": "proved",
   "theorems": [
    "C65_binary"
   ],
   "note": ""
  },
  {
   "property": "C66",
   "status": "proved",
   "theorems": [
    "C66_root_is_textbook_merkle_root"
   ],
   "note": ""
  },
  {
   "property": "C67",
   "status": "partial",
   "theorems": [
    "C67_fss_any_input_length",
    "C67_long_point_missed_refuted"
   ],
   "note": "True up to 256 bits; exact behaviour for longer inputs proved, and long points with bit 256 set are never hit."
  },
  {
   "property": "C68",
   "status": "partial",
   "theorems": [
    "C68_request_bytes_crash_server_refuted",
    "C68_exact_partial",
    "C68_malformed_query_crashes_server_refuted"
   ],
   "note": "False of the code; C68_exact_partial says exactly which queries and keys the server survives."
  },
  {
   "property": "C69",
   "status": "partial",
   "theorems": [
    "C69_short_text_crashes_servers_refuted"
   ],
   "note": "False of the code."
  },
  {
   "property": "C70",
   "status": "partial",
   "theorems": [
    "C70_clock_difference_breaks_average_refuted"
   ],
   "note": "False of the code; witness computed in the kernel."
  },
  {
   "property": "C71",
   "status": "partial",
   "theorems": [
    "C71_malformed_answer_crashes_client_refuted",
    "C71_long_enough_answers_do_not_panic"
   ],
   "note": "False of the code; the non-crashing shapes of COUNT answers are characterised."
  },
  {
   "property": "C72",
   "status": "partial",
   "theorems": [
    "C72_two_server_deployment_value",
    "C72_two_server_deployment_refuted"
   ],
   "note": "False of the deployed pair; exact reconstructed value proved for every DPF."
  },
  {
   "property": "C73",
   "status": "partial",
   "theorems": [
    "C73_order_independent",
    "C73_chosen",
    "C73_documented_refuted"
   ],
   "note": "Order independence and exact choice proved; the documented choice is a different one."
  },
  {
   "property": "C74",
   "status": "partial",
   "theorems": [
    "C74_upper_case_refuted",
    "C74_partial"
   ],
   "note": "False of the code."
  },
  {
   "property": "C75",
   "status": "proved",
   "theorems": [
    "C75_chunks"
   ],
   "note": "gob encoding and files not modelled."
  },
  {
   "property": "C76",
   "status": "proved",
   "theorems": [
    "C76_end_to_end",
    "C76_end_to_end_merkle"
   ],
   "note": "OpenPGP serialisation as a round-trip contract (keyring_ok)."
  },
  {
   "property": "C77",
   "status": "partial",
   "theorems": [
    "C77_large_key_refuted",
    "C77_partial"
   ],
   "note": "False of the code; exact contents proved."
  },
  {
   "property": "C78",
   "status": "proved",
   "theorems": [
    "C78_predicate_rows",
    "C78_one_key_per_block"
   ],
   "note": ""
  },
  {
   "property": "C80",
   "status": "partial",
   "theorems": [
    "C80_cancelled_but_blocked_refuted",
    "C80_abandoned_still_computed_refuted",
    "C80_partial"
   ],
   "note": "False of the code: a cancelled caller can stay blocked on the full queue and its job is computed all the same; what holds after admission is proved."
  },
  {
   "property": "C81",
   "status": "partial",
   "theorems": [
    "C81_addresses_in_order_partial",
    "C81_bad_number_refuted",
    "C81_duplicate_number_refuted",
    "C81_flags_panic_refuted"
   ],
   "note": "Proved for tables numbered 0..n-1, every map order; wrong or repeated numbers, default flags refuted."
  },
  {
   "property": "C82",
   "status": "partial",
   "theorems": [
    "C82_flags_mean_the_request",
    "C82_command_line_count_partial",
    "C82_map_order_negates_refuted",
    "C82_manager_count",
    "C82_same_address_refuted"
   ],
   "note": "Manager: proved for every arrival order. Command line client: only when the connection map is visited in configuration order."
  },
  {
   "property": "C83",
   "status": "partial",
   "theorems": [
    "C83_success_is_real_partial",
    "C83_failure_shows_count_refuted"
   ],
   "note": "Status 200 implies a successful query; failures on two pages still show \"count: 0\"."
  },
  {
   "property": "C84",
   "status": "proved",
   "theorems": [
    "C84_web_email_count"
   ],
   "note": "From form fields to page, every arrival order."
  },
  {
   "property": "C85",
   "status": "partial",
   "theorems": [
    "C85_one_request_kills_the_site_refuted",
    "C85_bad_forms_answered_partial"
   ],
   "note": "False of the code for non-numeric years and failing servers; malformed forms are answered."
  },
  {
   "property": "C86",
   "status": "partial",
   "theorems": [
    "C86_interactive_email_partial",
    "C86_empty_text_refuted",
    "C86_avg_alone_panics_refuted",
    "C86_interactive_average",
    "C86_interactive_year",
    "C86_before_year_refuted"
   ],
   "note": "Non-empty texts and averages proved; the empty text, -avg alone and the \"created before year\" prompt are refuted."
  },
  {
   "property": "C87",
   "status": "partial",
   "theorems": [
    "C87_classical_servers_never_accepted",
    "C87_classical_client_crashes_servers_refuted",
    "C87_point_client_predicate_servers_refuted"
   ],
   "note": "Never accepted by the client; but a classical query crashes authenticated servers, and predicate servers crash point clients."
  },
  {
   "property": "C79",
   "status": "partial",
   "theorems": [
    "C79_server_forgets",
    "C79_client_forgets",
    "C79_overlapping_calls_refuted",
    "C79_damage_does_not_last",
    "C79_uninterrupted_call"
   ],
   "note": "Proved for calls in sequence (client and server, any history, after any earlier overlap); overlapping calls on one server value refuted."
  },
  {
   "property": "C88",
   "status": "partial",
   "theorems": [
    "C88_zero_bits",
    "C88_any_bits_partial",
    "C88_one_bits_refuted"
   ],
   "note": "Stored zeros: proved. Stored ones: refuted for 1 MiB and 1 GiB; weaker levels proved for any bit."
  },
  {
   "property": "C89",
   "status": "proved",
   "theorems": [
    "C89_benchmark_retrieves",
    "C89_disagreement_stops"
   ],
   "note": "Both point-query schemes, two or more servers."
  },
  {
   "property": "C90",
   "status": "partial",
   "theorems": [
    "C90_classic_amount_partial",
    "C90_merkle_amount_refuted",
    "C90_last_block_refuted",
    "C90_whole_database_refuted",
    "C90_dropped_blocks_refuted"
   ],
   "note": "Amount proved for the unauthenticated scheme; four parts refuted."
  },
  {
   "property": "C91",
   "status": "partial",
   "theorems": [
    "C91_random_keys",
    "C91_benchmark_completes",
    "C91_two_servers_only",
    "C91_default_length_refuted"
   ],
   "note": "Proved for positive text lengths; the default length -1 panics."
  },
  {
   "property": "C92",
   "status": "proved",
   "theorems": [
    "C92_preprocessing",
    "C92_rows_positive"
   ],
   "note": ""
  },
  {
   "property": "C93",
   "status": "partial",
   "theorems": [
    "C93_one_at_a_time",
    "C93_rand_int_range",
    "C93_progress",
    "C93_words_terminate",
    "C93_panic_blocks_everybody_refuted",
    "C93_panic_reached_refuted"
   ],
   "note": "Linearizability, ranges and progress proved for every schedule; the mutex is lost after a panic in RandInt (refuted part)."
  },
  {
   "property": "C94",
   "status": "proved",
   "theorems": [
    "C94_law_independent_of_rejections",
    "C94_gaussian",
    "C94_range",
    "C94_symmetric"
   ],
   "note": "Exact counting over 64-bit words; the comparison with exp uses the axioms of the standard library Reals."
  },
  {
   "property": "C95",
   "status": "partial",
   "theorems": [
    "C95_chunk_files",
    "C95_any_size",
    "C95_rerun",
    "C95_stale_chunks_refuted"
   ],
   "note": "Exact round trip proved; a directory that was used before keeps surplus chunks (exact result proved, expectation refuted)."
  },
  {
   "property": "C96",
   "status": "partial",
   "theorems": [
    "C96_files_flag",
    "C96_first_chunks",
    "C96_default_refuted"
   ],
   "note": "Characterized exactly; the default of the flag serves one chunk only (refuted part)."
  },
  {
   "property": "C97",
   "status": "partial",
   "theorems": [
    "C97_killed_prefix",
    "C97_partial_record_detected",
    "C97_rerun_repairs",
    "C97_loss_unnoticed_refuted"
   ],
   "note": "Prefix, detection of partial records and repair by rerunning proved; kills between records are not noticed (refuted part)."
  },
  {
   "property": "C98",
   "status": "partial",
   "theorems": [
    "C98_deployment",
    "C98_every_key_twice_refuted"
   ],
   "note": "Proved up to the number of chunks; one file more duplicates every key (refuted part)."
  },
  {
   "property": "C99",
   "status": "partial",
   "theorems": [
    "C99_files_read",
    "C99_success",
    "C99_unanchored_refuted"
   ],
   "note": "Exact selection proved; unanchored pattern (refuted part)."
  },
  {
   "property": "C100",
   "status": "partial",
   "theorems": [
    "C100_frame",
    "C100_mistakes_reported",
    "C100_gen_db_refuted",
    "C100_failure_destroys_refuted"
   ],
   "note": "Frame and error reporting proved; genDB and destructive failures refuted."
  },
  {
   "property": "C101",
   "status": "partial",
   "theorems": [
    "C101_products",
    "C101_binary_products",
    "C101_undefined_refuted",
    "C101_square",
    "C101_benchmarks",
    "C101_benchmark_refuted"
   ],
   "note": "Proved up to 2^31 elements per matrix; the 1 GiB benchmark exceeds it (refuted part)."
  },
  {
   "property": "C102",
   "status": "partial",
   "theorems": [
    "C102_memory_end_partial",
    "C102_headers",
    "C102_server32_partial",
    "C102_server128_partial",
    "C102_memory_partial",
    "C102_memory_refuted",
    "C102_amplified_partial",
    "C102_no_error_refuted"
   ],
   "note": "Exact behaviour on all byte strings proved, including the end of mapped memory; crashes and reading beyond the buffer (refuted parts)."
  },
  {
   "property": "C103",
   "status": "partial",
   "theorems": [
    "C103_lattice32_partial",
    "C103_lattice128_partial",
    "C103_amplified_partial",
    "C103_dh_partial",
    "C103_dh_extra",
    "C103_crash_refuted"
   ],
   "note": "Exact outcomes by size of the answer; crashes (refuted part)."
  },
  {
   "property": "C104",
   "status": "partial",
   "theorems": [
    "C104_server_partial",
    "C104_capacity",
    "C104_crash_refuted"
   ],
   "note": "Exact behaviour on all byte strings and buffer capacities; crashes (refuted part)."
  },
  {
   "property": "C105",
   "status": "partial",
   "theorems": [
    "C105_report",
    "C105_figures_lwe",
    "C105_figures_lwe128",
    "C105_completes_lwe_partial",
    "C105_completes_lwe128_partial",
    "C105_completes_dh_partial",
    "C105_retrieves_lwe_partial",
    "C105_retrieves_dh_partial",
    "C105_other_length_refuted",
    "C105_first_guess_refuted",
    "C105_unchecked_refuted",
    "C105_messages_refuted"
   ],
   "note": "Report, figures and conditional completion proved; other lengths, unlucky first scalars, unchecked values and message overhead are the refuted parts."
  },
  {
   "property": "C106",
   "status": "partial",
   "theorems": [
    "C106_web_shows_key_of_address",
    "C106_interactive_shows_key_of_address",
    "C106_cli_shows_key_of_address",
    "C106_typed_address",
    "C106_found",
    "C106_not_found",
    "C106_empty_bucket_refuted",
    "C106_two_servers_refuted"
   ],
   "note": "Proved for three or more servers and used buckets; empty buckets and two servers are the refuted parts."
  },
  {
   "property": "C107",
   "status": "partial",
   "theorems": [
    "C107_authenticated_partial",
    "C107_downgrade_refuted",
    "C107_hidden_key_refuted"
   ],
   "note": "C107_authenticated_partial excludes forged keys when the first description is honest; downgrade and hidden keys are the refuted parts."
  },
  {
   "property": "C108",
   "status": "partial",
   "theorems": [
    "C108_started",
    "C108_starts",
    "C108_documented_schemes_refuted",
    "C108_sixth_server_refuted",
    "C108_deployment"
   ],
   "note": "Exact starting conditions and the deployment proved; documented schemes and the sixth server are the refuted parts."
  },
  {
   "property": "C109",
   "status": "partial",
   "theorems": [
    "C109_right_answers",
    "C109_no_memory",
    "C109_never_another_key",
    "C109_leaving",
    "C109_failures_are_silent_refuted",
    "C109_one_failing_server_refuted"
   ],
   "note": "Right answers, independence and leaving proved for sessions of any length; silent ends are the refuted parts."
  },
  {
   "property": "C110",
   "status": "partial",
   "theorems": [
    "C110_right_pages",
    "C110_no_memory",
    "C110_all_answered",
    "C110_other_pages",
    "C110_one_request_ends_the_server_refuted"
   ],
   "note": "Right pages, independence and request numbers proved for any number of requests; one bad year ends the server (refuted part)."
  },
  {
   "property": "C111",
   "status": "partial",
   "theorems": [
    "C111_connected_to_all",
    "C111_configured",
    "C111_first_unreachable_named",
    "C111_listens",
    "C111_configuration_ignored_refuted",
    "C111_silent_start_refuted",
    "C111_released_finds_no_key_refuted"
   ],
   "note": "Proved for the configurable start; the released switch ignores the configuration (refuted parts)."
  },
  {
   "property": "C112",
   "status": "partial",
   "theorems": [
    "C112_same_rows",
    "C112_page_counts_stored_keys",
    "C112_command_line_counts_stored_keys_partial",
    "C112_other_address_refuted",
    "C112_no_key_created_before_refuted"
   ],
   "note": "From the files to the page for authenticated counting; without authentication if the servers are visited in their order (C82); address by lookup and creation dates are the refuted parts."
  },
  {
   "property": "C113",
   "status": "proved",
   "theorems": [
    "C113_ceiling",
    "C113_next_square",
    "C113_matrix",
    "C113_tree",
    "C113_models",
    "C113_limits"
   ],
   "note": "Over every rounding to nearest; the library laws of log2 and exp2 are hypotheses met by the real functions. C113_limits shows that the bounds are needed."
  },
  {
   "property": "C114",
   "status": "proved",
   "theorems": [
    "C114_records",
    "C114_adds_up"
   ],
   "note": "Over every history."
  },
  {
   "property": "C115",
   "status": "partial",
   "theorems": [
    "C115_point_servers",
    "C115_predicate_servers_refuted",
    "C115_entries_refuted"
   ],
   "note": "C115_point_servers; the logs of predicate servers and the factor for 32-bit entries are the refuted parts."
  },
  {
   "property": "C116",
   "status": "partial",
   "theorems": [
    "C116_front_end_connects",
    "C116_clients_connect",
    "C116_connected_to_key_holders",
    "C116_strangers_rejected",
    "C116_one_server_for_all_refuted",
    "C116_published_keys_refuted",
    "C116_expired_refuted"
   ],
   "note": "Acceptance of the servers, and of nobody without one of the keys, proved over every network; interchangeability, published keys and expiry are the refuted parts."
  },
  {
   "property": "C117",
   "status": "partial",
   "theorems": [
    "C117_delivered",
    "C117_column_refuted",
    "C117_person_refuted",
    "C117_one_connection_missing",
    "C117_predicate_refuted"
   ],
   "note": "C117_delivered and C117_one_connection_missing; the refuted parts assume somebody at the other end of every connection. Computational privacy of the function secret sharing against one server is not expressible."
  },
  {
   "property": "C118",
   "status": "partial",
   "theorems": [
    "C118_notifications",
    "C118_ready_when_listening",
    "C118_stopping_told_at_the_end_refuted",
    "C118_starts",
    "C118_clean_exit",
    "C118_stops",
    "C118_crash_refuted",
    "C118_late_call_refuted",
    "C118_silent_death_refuted",
    "C118_unstoppable_refuted",
    "C118_notification_failure_kills_refuted",
    "C118_http_stops_refuted"
   ],
   "note": "Over every interleaving; the time of STOPPING, crashes, unstoppable servers, failing sockets and HTTP requests are the refuted parts."
  },
  {
   "property": "C119",
   "status": "partial",
   "theorems": [
    "C119_clean_exit",
    "C119_stops",
    "C119_three_requests_hang_refuted",
    "C119_three_requests_refuted"
   ],
   "note": "Over every interleaving; the deadlock after three requests is the refuted part."
  },
  {
   "property": "C120",
   "status": "partial",
   "theorems": [
    "C120_calls",
    "C120_descriptions",
    "C120_lookup_unchanged",
    "C120_key_through_network",
    "C120_large_messages_refuted",
    "C120_large_answers_refuted"
   ],
   "note": "Over every handler, query and directory; the compressor is an argument with the law that it inverts. The limit of 2^30 bytes is the refuted part."
  },
  {
   "property": "C121",
   "status": "partial",
   "theorems": [
    "C121_unknown_fields",
    "C121_any_bytes",
    "C121_truncated",
    "C121_missing_fields_refuted",
    "C121_lenient_refuted"
   ],
   "note": "Over every sequence of bytes; missing, mistyped and oversized fields are the refuted part."
  },
  {
   "property": "C122",
   "status": "partial",
   "theorems": [
    "C122_same_server",
    "C122_clean_stop",
    "C122_status",
    "C122_no_shortcut",
    "C122_interrupt_ends",
    "C122_interrupt_refuted",
    "C122_interrupt_is_a_request",
    "C122_memory_file_refuted",
    "C122_failed_start_refuted",
    "C122_unwritable"
   ],
   "note": "Over every interleaving; interruptions, the late memory profile and fatal errors are the refuted parts."
  },
  {
   "property": "C123",
   "status": "partial",
   "theorems": [
    "C123_benchmark",
    "C123_benchmark_fatal_refuted",
    "C123_client_status",
    "C123_client_profile_refuted",
    "C123_interrupted_client_refuted",
    "C123_connections_left_open_refuted"
   ],
   "note": "Over every outcome and moment of interruption; the scope of the client profile, its status when interrupted and its connections are the refuted parts."
  },
  {
   "property": "C124",
   "status": "partial",
   "theorems": [
    "C124_published_key_is_shown",
    "C124_unpublished_address_partial",
    "C124_dishonest_answers_partial"
   ],
   "note": "C124_published_key_is_shown is the full path for every published key of at most 8192 bytes; the addresses without a key are covered when their bucket is in use (an empty bucket crashes the client: C106_empty_bucket_refuted); C124_dishonest_answers_partial follows answers that some servers change."
  },
  {
   "property": "C125",
   "status": "partial",
   "theorems": [
    "C125_page_counts_published_keys",
    "C125_command_line_counts_published_keys_partial"
   ],
   "note": "Over every dump and text; the page in full, the command line for the two counting servers of an unauthenticated deployment (the other uses: C87); as for C112, without resampling in the conversion and for readable texts."
  },
  {
   "property": "C126",
   "status": "partial",
   "theorems": [
    "C126_requests_arrive",
    "C126_truncated_requests_refused",
    "C126_results_unchanged",
    "C126_page_counts_published_keys",
    "C126_command_line_counts_published_keys_partial",
    "C126_request_size"
   ],
   "note": "Over every question, key, numbering and cut. The definitions of the types inside a stream are left open: the receiver is an argument that recognises them. The command line as for C125; the rest in full."
  },
  {
   "property": "C127",
   "status": "partial",
   "theorems": [
    "C127_benchmark_run",
    "C127_server_starts",
    "C127_server_crashes_refuted",
    "C127_two_servers_only"
   ],
   "note": "Completion, the logged number of bytes and the dropped result in full. Log files and elapsed times are left out. The servers crash on two kinds of wrong settings, so those clauses are refuted."
  },
  {
   "property": "C128",
   "status": "proved",
   "theorems": [
    "C128_benchmark_run"
   ],
   "note": "The whole claim, for elements of eight bits as the programs use. The length of the keys of the function shares (an external library) is an argument; log files and elapsed times are left out."
  },
  {
   "property": "C129",
   "status": "partial",
   "theorems": [
    "C129_address_found",
    "C129_no_address",
    "C129_long_domains_refuted",
    "C129_entities_exact",
    "C129_entities_loaded",
    "C129_bad_keys"
   ],
   "note": "Both functions in full, with a backtracking matcher for the expression. Domains with a long last part are not found, so that clause is refuted."
  },
  {
   "property": "C130",
   "status": "partial",
   "theorems": [
    "C130_client_log",
    "C130_server_log",
    "C130_plotted",
    "C130_several_blocks_refuted",
    "C130_predicate_run",
    "C130_names_refuted",
    "C130_point_run",
    "C130_single_block_run"
   ],
   "note": "Reading and adding up in full, for runs that end without an error. How an elapsed time is rounded to microseconds, and the median, are left out. The figure is followed from the runs over the network for predicate queries (C130_predicate_run) and for point queries (C130_point_run gives the number shown for any number of blocks, C130_single_block_run that it is right with one). Several blocks in a repetition and some names are refuted."
  },
  {
   "property": "C131",
   "status": "partial",
   "theorems": [
    "C131_reads",
    "C131_table",
    "C131_bars",
    "C131_run_lwe",
    "C131_run_lwe128",
    "C131_run_dh_partial",
    "C131_missing",
    "C131_preprocessing_partial",
    "C131_preprocessing_order_refuted",
    "C131_run_preprocessing"
   ],
   "note": "File of results, table and bars proved for all results, and composed with the runs of the lattice schemes, the Diffie-Hellman scheme (when no point has a short encoding) and the preprocessing benchmark. Refuted: the preprocessing curve sorts times apart from sizes; proved when times grow with the size. Floating-point rounding and standard deviations are not modelled."
  },
  {
   "property": "C132",
   "status": "partial",
   "theorems": [
    "C132_client_log",
    "C132_server_log",
    "C132_complex_partial",
    "C132_complex_run_partial",
    "C132_shifted_refuted",
    "C132_latency_partial",
    "C132_ping_refuted",
    "C132_key_text_refuted",
    "C132_ratio_partial",
    "C132_rounded_text",
    "C132_megabyte_refuted"
   ],
   "note": "Reading of both files in full, for all runs and processes; the table row when every run ends, the ratio for 5 to 999 kB, the time of a point query with the delay that the script really adds. Refuted: pairing after a failed run, the unit of the delay, keys whose text contains the word stats, and rows from one megabyte on. The row is also followed from the runs of the client and of the servers over the network (C132_complex_run_partial), and the printed kilobytes are shown to be the rounded ones (C132_rounded_text). Floating-point rounding is left out."
  },
  {
   "property": "C133",
   "status": "partial",
   "theorems": [
    "C133_flags",
    "C133_own_files",
    "C133_plotted",
    "C133_one_block",
    "C133_point_figure",
    "C133_servers_figure",
    "C133_predicate_figure",
    "C133_numbers_partial",
    "C133_numbers_refuted",
    "C133_few_servers_refuted",
    "C133_only_measurements"
   ],
   "note": "Commands and flags of all three experiments, names and collection of the log files, and the files of the figures in full; the figure of the point experiment from the run over the network (C133_point_figure), likewise with several servers and for predicate queries (C133_servers_figure, C133_predicate_figure). Partial: server numbers when the tables of config.toml are in order. Refuted: another order, and too few configured servers. Connections to the machines, waiting times and the shell beyond splitting at blanks are left out."
  },
  {
   "property": "C134",
   "status": "partial",
   "theorems": [
    "C134_bound",
    "C134_least",
    "C134_used",
    "C134_own_bound_partial",
    "C134_client_bound_refuted",
    "C134_128_partial",
    "C134_128_refuted",
    "C134_1KiB_zero_refuted"
   ],
   "note": "Bound, least tolerance and agreement with the benchmark in full. The error is reached for stored zeros with the bound of the script, and for the real client for 1 MiB and 1 GiB (2^-126 for 1 KiB). Refuted: equality of the bounds, stored ones at 2^-128, and stored zeros at 2^-128 for 1 KiB (an explicit server). Floating-point rounding in the script is left out."
  }
 ]
}