{
 "claims": [
  {
   "property": "C01",
   "status": "proved",
   "theorems": [
    "C01_exported_wif_validates",
    "C01_every_produced_wif_validates"
   ],
   "note": ""
  },
  {
   "property": "C02",
   "status": "proved",
   "theorems": [
    "C02_hex_wif_hex"
   ],
   "note": ""
  },
  {
   "property": "C03",
   "status": "proved",
   "theorems": [
    "C03_wif_hex_wif",
    "C03_wif_comes_back_iff_version_matches"
   ],
   "note": ""
  },
  {
   "property": "C04",
   "status": "proved",
   "theorems": [
    "C04_wif_is_base58check"
   ],
   "note": ""
  },
  {
   "property": "C05",
   "status": "proved",
   "theorems": [
    "C05_wif_unambiguous",
    "C05_same_network",
    "C05_main_never_test"
   ],
   "note": ""
  },
  {
   "property": "C06",
   "status": "proved",
   "theorems": [
    "C06_CheckWIF_true_iff_base58check",
    "C06_CheckWIF_exact"
   ],
   "note": ""
  },
  {
   "property": "C07",
   "status": "proved",
   "theorems": [
    "C07_CheckWIF_panics_iff_short",
    "C07_CheckWIF_total_refuted"
   ],
   "note": ""
  },
  {
   "property": "C08",
   "status": "proved",
   "theorems": [
    "C08_PrivateFromHex_exact",
    "C08_spellable_iff"
   ],
   "note": ""
  },
  {
   "property": "C09",
   "status": "proved",
   "theorems": [
    "C09_no_range_check",
    "C09_accepted_in_range_refuted"
   ],
   "note": ""
  },
  {
   "property": "C10",
   "status": "proved",
   "theorems": [
    "C10_PrivateFromWIF_exact",
    "C10_network_argument_ignored",
    "C10_version_checked_refuted"
   ],
   "note": ""
  },
  {
   "property": "C11",
   "status": "proved",
   "theorems": [
    "C11_PrivateFromWIF_outcomes",
    "C11_import_of_checked_wif_returns_refuted"
   ],
   "note": ""
  },
  {
   "property": "C12",
   "status": "proved",
   "theorems": [
    "C12_compressed_wif_wrong_key"
   ],
   "note": ""
  },
  {
   "property": "C13",
   "status": "proved",
   "theorems": [
    "C13_generated_wellformed"
   ],
   "note": ""
  },
  {
   "property": "C14",
   "status": "proved",
   "theorems": [
    "C14_generated_wif_shape",
    "C14_main_wif_shape",
    "C14_test_wif_shape"
   ],
   "note": ""
  },
  {
   "property": "C15",
   "status": "proved",
   "theorems": [
    "C15_no_key_is_favoured",
    "C15_first_block_in_range",
    "C15_reachable_keys",
    "C15_fuel_irrelevant"
   ],
   "note": ""
  },
  {
   "property": "C16",
   "status": "proved",
   "theorems": [
    "C16_every_outcome",
    "C16_bad_prefix_never_returns"
   ],
   "note": ""
  },
  {
   "property": "C17",
   "status": "proved",
   "theorems": [
    "C17_add_mod_N"
   ],
   "note": ""
  },
  {
   "property": "C18",
   "status": "proved",
   "theorems": [
    "C18_mul_mod_N"
   ],
   "note": ""
  },
  {
   "property": "C19",
   "status": "proved",
   "theorems": [
    "C19_add_commutative",
    "C19_mul_commutative"
   ],
   "note": ""
  },
  {
   "property": "C20",
   "status": "proved",
   "theorems": [
    "C20_add_associative",
    "C20_mul_associative",
    "C20_distributive"
   ],
   "note": ""
  },
  {
   "property": "C21",
   "status": "proved",
   "theorems": [
    "C21_add_outcome",
    "C21_mul_outcome",
    "C21_add_any_prefix",
    "C21_mul_any_prefix",
    "C21_distinct_valid_keys_add_refuted"
   ],
   "note": ""
  },
  {
   "property": "C22",
   "status": "proved",
   "theorems": [
    "C22_add_wif_51_iff",
    "C22_mul_wif_51_iff",
    "C22_add_wif_standard_iff",
    "C22_mul_wif_standard_iff"
   ],
   "note": ""
  },
  {
   "property": "C23",
   "status": "proved",
   "theorems": [
    "C23_same_wif_refused",
    "C23_only_identical_refused_refuted"
   ],
   "note": ""
  },
  {
   "property": "C24",
   "status": "proved",
   "theorems": [
    "C24_public_key_is_k_times_G",
    "C24_any_number",
    "C24_multiples_of_N_fail"
   ],
   "note": ""
  },
  {
   "property": "C25",
   "status": "proved",
   "theorems": [
    "C25_distinct_keys_distinct_points",
    "C25_same_point_iff_congruent",
    "C25_same_x_iff_opposite"
   ],
   "note": ""
  },
  {
   "property": "C26",
   "status": "proved",
   "theorems": [
    "C26_adding_commutes_with_publishing",
    "C26_sum_is_the_key_of_the_sum",
    "C26_error_iff_sum_zero"
   ],
   "note": ""
  },
  {
   "property": "C27",
   "status": "proved",
   "theorems": [
    "C27_multiplying_is_diffie_hellman"
   ],
   "note": ""
  },
  {
   "property": "C28",
   "status": "proved",
   "theorems": [
    "C28_format_is_sec1_hex"
   ],
   "note": ""
  },
  {
   "property": "C29",
   "status": "proved",
   "theorems": [
    "C29_format_injective",
    "C29_parity_determines_the_point",
    "C29_sec1_determines_the_coordinates"
   ],
   "note": ""
  },
  {
   "property": "C30",
   "status": "proved",
   "theorems": [
    "C30_uncompressed_export_import",
    "C30_uncompressed_import_export"
   ],
   "note": ""
  },
  {
   "property": "C31",
   "status": "proved",
   "theorems": [
    "C31_export_import",
    "C31_both_forms_agree"
   ],
   "note": ""
  },
  {
   "property": "C32",
   "status": "proved",
   "theorems": [
    "C32_compressed_import",
    "C32_uncompressed_import_checks_nothing"
   ],
   "note": ""
  },
  {
   "property": "C33",
   "status": "proved",
   "theorems": [
    "C33_panic_set",
    "C33_unsupported_prefix",
    "C33_uncompressed_checks_nothing",
    "C33_trailing_characters_ignored"
   ],
   "note": ""
  },
  {
   "property": "C34",
   "status": "proved",
   "theorems": [
    "C34_address_is_base58check_of_hash160",
    "C34_equal_addresses_equal_hashes"
   ],
   "note": ""
  },
  {
   "property": "C35",
   "status": "proved",
   "theorems": [
    "C35_main_address_shape",
    "C35_test_address_shape",
    "C35_main_and_test_never_coincide"
   ],
   "note": ""
  },
  {
   "property": "C36",
   "status": "proved",
   "theorems": [
    "C36_uncompressed_success_set",
    "C36_compressed_success_set",
    "C36_panic_set"
   ],
   "note": ""
  },
  {
   "property": "C37",
   "status": "proved",
   "theorems": [
    "C37_same_address_after_export_and_import",
    "C37_every_key_has_an_address"
   ],
   "note": ""
  },
  {
   "property": "C38",
   "status": "proved",
   "theorems": [
    "C38_add_is_the_point_sum",
    "C38_commutative",
    "C38_associative",
    "C38_closed",
    "C38_networks_must_agree",
    "C38_flag_has_no_effect"
   ],
   "note": ""
  },
  {
   "property": "C39",
   "status": "proved",
   "theorems": [
    "C39_exact_number_of_list_words",
    "C39_random_source_failure_is_an_error",
    "C39_other_lengths_are_errors",
    "C39_nil_list_is_an_error",
    "C39_no_error_with_entropy"
   ],
   "note": ""
  },
  {
   "property": "C40",
   "status": "proved",
   "theorems": [
    "C40_no_entropy_lost",
    "C40_only_the_entropy_matters"
   ],
   "note": ""
  },
  {
   "property": "C41",
   "status": "proved",
   "theorems": [
    "C41_reversed_bit_string",
    "C41_word_by_word",
    "C41_C47_generated_is_bip39_refuted"
   ],
   "note": ""
  },
  {
   "property": "C42",
   "status": "proved",
   "theorems": [
    "C42_checksum_bits"
   ],
   "note": ""
  },
  {
   "property": "C43",
   "status": "proved",
   "theorems": [
    "C43_panic_set",
    "C43_full_lists_panic_only_on_a_tiny_hash"
   ],
   "note": ""
  },
  {
   "property": "C44",
   "status": "proved",
   "theorems": [
    "C44_never_a_seed",
    "C44_passphrase_ignored"
   ],
   "note": ""
  },
  {
   "property": "C45",
   "status": "proved",
   "theorems": [
    "C45_accepted_phrases",
    "C45_word_count_multiple_of_8",
    "C45_24_words_iff_bip39",
    "C45_unknown_word_is_an_error",
    "C45_nil_list_is_an_error"
   ],
   "note": ""
  },
  {
   "property": "C46",
   "status": "proved",
   "theorems": [
    "C46_counts_that_panic",
    "C46_counts_that_fail",
    "C46_valid_short_phrases_refused"
   ],
   "note": ""
  },
  {
   "property": "C47",
   "status": "proved",
   "theorems": [
    "C41_C47_generated_is_bip39_refuted",
    "C47_short_generated_phrases_refused",
    "C47_generated_24_words_accepted_iff"
   ],
   "note": ""
  },
  {
   "property": "C48",
   "status": "proved",
   "theorems": [
    "C48_log_contains_the_secret",
    "C48_log_contains_the_bits_in_any_case"
   ],
   "note": ""
  },
  {
   "property": "C49",
   "status": "proved",
   "theorems": [
    "C49_builtin_lists_are_proper",
    "C49_indices_are_recoverable",
    "C49_phrases_split_unambiguously",
    "C49_english_first_four_letters"
   ],
   "note": ""
  },
  {
   "property": "C50",
   "status": "proved",
   "theorems": [
    "C50_random_number",
    "C50_panics_iff_no_block",
    "C50_range_and_blocks"
   ],
   "note": ""
  },
  {
   "property": "C51",
   "status": "proved",
   "theorems": [
    "C51_nothing_is_modified",
    "C51_results_are_the_values",
    "C51_history_independent",
    "C51_history_independent_random"
   ],
   "note": ""
  },
  {
   "property": "C52",
   "status": "proved",
   "theorems": [
    "C52_any_schedule",
    "C52_same_as_alone"
   ],
   "note": ""
  },
  {
   "property": "C53",
   "status": "proved",
   "theorems": [
    "C53_private_from_hex_shares",
    "C53_private_from_wif_shares",
    "C53_generate_shares",
    "C53_public_from_hex_shares",
    "C53_add_private_shares",
    "C53_multiply_private_shares",
    "C53_get_public_key_shares",
    "C53_add_public_shares",
    "C53_address_follows_the_object",
    "C53_address_ignores_other_objects"
   ],
   "note": ""
  },
  {
   "property": "C54",
   "status": "proved",
   "theorems": [
    "C54_parameters",
    "C54_primes",
    "C54_generator_on_curve",
    "C54_generator_order",
    "C54_points_form_a_group"
   ],
   "note": ""
  },
  {
   "property": "C55",
   "status": "proved",
   "theorems": [
    "C55_one_private_key_per_point"
   ],
   "note": ""
  },
  {
   "property": "C56",
   "status": "proved",
   "theorems": [
    "C56_no_data_race",
    "C56_shared_objects_are_read_only"
   ],
   "note": ""
  },
  {
   "property": "C57",
   "status": "proved",
   "theorems": [
    "C57_no_goroutine_is_stuck",
    "C57_every_schedule_ends"
   ],
   "note": ""
  },
  {
   "property": "C58",
   "status": "proved",
   "theorems": [
    "C58_package_initialisation",
    "C58_constants_never_change"
   ],
   "note": ""
  },
  {
   "property": "C59",
   "status": "proved",
   "theorems": [
    "C59_random_bytes_and_log_lines_are_dealt_once"
   ],
   "note": ""
  },
  {
   "property": "C60",
   "status": "proved",
   "theorems": [
    "C60_generated_key_is_restored",
    "C60_sum_is_restored",
    "C60_product_is_restored",
    "C60_generate_to_address"
   ],
   "note": ""
  },
  {
   "property": "C61",
   "status": "proved",
   "theorems": [
    "C61_many_keys_add_up",
    "C61_private_order_irrelevant",
    "C61_every_order_succeeds_refuted",
    "C61_public_keys_add_up_alike",
    "C61_public_order_irrelevant"
   ],
   "note": ""
  },
  {
   "property": "C62",
   "status": "proved",
   "theorems": [
    "C62_address_imported_as_key"
   ],
   "note": ""
  },
  {
   "property": "C63",
   "status": "proved",
   "theorems": [
    "C63_add_private_panics_nil",
    "C63_multiply_private_panics_nil",
    "C63_get_public_key_panics_nil",
    "C63_format_panics_nil",
    "C63_address_panics_nil",
    "C63_add_public_panics_nil",
    "C63_add_private_panics",
    "C63_multiply_private_panics",
    "C63_get_public_key_panics",
    "C63_format_panics",
    "C63_add_public_panics",
    "C63_returned_key_without_number",
    "C63_imported_keys_can_be_published_refuted"
   ],
   "note": ""
  },
  {
   "property": "C64",
   "status": "proved",
   "theorems": [
    "C64_stray_spaces_refused",
    "C64_ideographic_space_refused"
   ],
   "note": ""
  },
  {
   "property": "C65",
   "status": "proved",
   "theorems": [
    "C65_only_2048_words_matter"
   ],
   "note": ""
  },
  {
   "property": "C66",
   "status": "proved",
   "theorems": [
    "C66_compressed_import_export"
   ],
   "note": ""
  },
  {
   "property": "C67",
   "status": "proved",
   "theorems": [
    "C67_opposite_keys",
    "C67_compressed_texts_differ_in_the_prefix"
   ],
   "note": ""
  },
  {
   "property": "C68",
   "status": "proved",
   "theorems": [
    "C68_failing_streams",
    "C68_failures_vanish",
    "C68_streams_per_key"
   ],
   "note": ""
  },
  {
   "property": "C69",
   "status": "proved",
   "theorems": [
    "C69_no_phrase_is_favoured",
    "C69_repeated_words_lose_entropy_refuted"
   ],
   "note": ""
  },
  {
   "property": "C70",
   "status": "proved",
   "theorems": [
    "C70_no_sequence_of_keys_is_favoured"
   ],
   "note": ""
  },
  {
   "property": "C71",
   "status": "proved",
   "theorems": [
    "C71_one_phrase_in_256_is_accepted"
   ],
   "note": ""
  },
  {
   "property": "C72",
   "status": "proved",
   "theorems": [
    "C72_accepted_with_any_list",
    "C72_every_outcome",
    "C72_bits_of_a_word_are_unique"
   ],
   "note": ""
  },
  {
   "property": "C73",
   "status": "proved",
   "theorems": [
    "C73_wif_is_never_an_address",
    "C73_generated_wif_is_never_an_address",
    "C73_sum_wif_is_never_an_address",
    "C73_product_wif_is_never_an_address",
    "C73_any_networks",
    "C73_equal_prefixes_refuted"
   ],
   "note": ""
  },
  {
   "property": "C74",
   "status": "proved",
   "theorems": [
    "C74_wif_text",
    "C74_address_text",
    "C74_any_lower_casing"
   ],
   "note": ""
  },
  {
   "property": "C75",
   "status": "proved",
   "theorems": [
    "C75_foreign_character",
    "C75_one_checksum",
    "C75_valid_count",
    "C75_last_five_characters",
    "C75_last_five_characters_keys"
   ],
   "note": ""
  },
  {
   "property": "C76",
   "status": "proved",
   "theorems": [
    "C76_ascii_sign_refused",
    "C76_other_byte_refused"
   ],
   "note": ""
  },
  {
   "property": "C77",
   "status": "proved",
   "theorems": [
    "C77_composed_letter_refused"
   ],
   "note": ""
  },
  {
   "property": "C78",
   "status": "proved",
   "theorems": [
    "C78_other_language_refused",
    "C78_generated_other_language_refused",
    "C78_chinese_lists_agree",
    "C78_english_french_refuted"
   ],
   "note": ""
  },
  {
   "property": "C79",
   "status": "proved",
   "theorems": [
    "C79_four_letters",
    "C79_four_letters_phrase"
   ],
   "note": ""
  },
  {
   "property": "C80",
   "status": "proved",
   "theorems": [
    "C80_format_ends",
    "C80_seed_ends",
    "C80_seed_ends_nil_list",
    "C80_mnemonic_ends"
   ],
   "note": ""
  },
  {
   "property": "C81",
   "status": "proved",
   "theorems": [
    "C81_ends_iff_a_block_is_in_range",
    "C81_key_of_the_first_block",
    "C81_one_result",
    "C81_runs_forever_iff",
    "C81_bad_prefix_runs_forever",
    "C81_nil_network",
    "C81_ends_or_runs_forever",
    "C81_same_as_finite_source",
    "C81_nested_calls_unbounded",
    "C81_phrase_always_ends"
   ],
   "note": ""
  },
  {
   "property": "C82",
   "status": "proved",
   "theorems": [
    "C82_address_collision",
    "C82_private_keys"
   ],
   "note": ""
  },
  {
   "property": "C83",
   "status": "proved",
   "theorems": [
    "C83_add_cancels",
    "C83_mul_cancels",
    "C83_add_complement",
    "C83_mul_complement"
   ],
   "note": ""
  },
  {
   "property": "C84",
   "status": "proved",
   "theorems": [
    "C84_returned_keys_are_usable",
    "C84_products_are_usable",
    "C84_any_prefix_refuted"
   ],
   "note": ""
  },
  {
   "property": "C85",
   "status": "proved",
   "theorems": [
    "C85_a_key_and_itself",
    "C85_public_doubling",
    "C85_leading_zeros"
   ],
   "note": ""
  },
  {
   "property": "C86",
   "status": "proved",
   "theorems": [
    "C86_public_keys_cancel",
    "C86_subtracting",
    "C86_every_key_has_an_opposite"
   ],
   "note": ""
  },
  {
   "property": "C87",
   "status": "proved",
   "theorems": [
    "C87_sums_ignore_hex",
    "C87_wif_only_refuses",
    "C87_point_from_number",
    "C87_format_from_coordinates",
    "C87_address_ignores_private_prefix",
    "C87_private_key_ignores_address_prefix",
    "C87_generating_ignores_address_prefix"
   ],
   "note": ""
  },
  {
   "property": "C88",
   "status": "proved",
   "theorems": [
    "C88_private_hex",
    "C88_private_hex_refused_alike",
    "C88_public_hex",
    "C88_generated_keys",
    "C88_addresses",
    "C88_networks_differ"
   ],
   "note": ""
  },
  {
   "property": "C89",
   "status": "proved",
   "theorems": [
    "C89_half_of_N_accepted"
   ],
   "note": ""
  },
  {
   "property": "C90",
   "status": "proved",
   "theorems": [
    "C90_wrong_sign_accepted"
   ],
   "note": ""
  },
  {
   "property": "C91",
   "status": "proved",
   "theorems": [
    "C91_split_key"
   ],
   "note": ""
  },
  {
   "property": "C92",
   "status": "proved",
   "theorems": [
    "C92_sha256_is_the_standard",
    "C92_ripemd160_is_the_standard",
    "C92_wif",
    "C92_CheckWIF",
    "C92_PrivateFromWIF",
    "C92_address",
    "C92_NewMnemonic",
    "C92_NewSeedFromMnemonic"
   ],
   "note": ""
  },
  {
   "property": "C93",
   "status": "proved",
   "theorems": [
    "C93_every_session",
    "C93_meanings_determined"
   ],
   "note": ""
  },
  {
   "property": "C94",
   "status": "proved",
   "theorems": [
    "C94_init",
    "C94_curve_stays",
    "C94_CheckWIF",
    "C94_PrivateFromHex",
    "C94_PrivateFromWIF",
    "C94_GeneratePrivateKey",
    "C94_AddPrivateKeys",
    "C94_MultiplyPrivateKeys",
    "C94_GetPublicKey",
    "C94_PublicFromHex",
    "C94_AddPublicKeys",
    "C94_Format",
    "C94_Address",
    "C94_NewMnemonic",
    "C94_NewSeedFromMnemonic"
   ],
   "note": ""
  },
  {
   "property": "C95",
   "status": "proved",
   "theorems": [
    "C95_every_run",
    "C95_one_end"
   ],
   "note": ""
  },
  {
   "property": "C96",
   "status": "proved",
   "theorems": [
    "C96_CheckWIF",
    "C96_PrivateFromHex",
    "C96_PrivateFromWIF",
    "C96_GeneratePrivateKey",
    "C96_AddPrivateKeys",
    "C96_MultiplyPrivateKeys",
    "C96_GetPublicKey",
    "C96_PublicFromHex",
    "C96_AddPublicKeys",
    "C96_Format",
    "C96_Address",
    "C96_NewMnemonic",
    "C96_NewSeedFromMnemonic",
    "C96_mnemonic_refusals",
    "C96_nil_private",
    "C96_nil_public"
   ],
   "note": ""
  },
  {
   "property": "C97",
   "status": "proved",
   "theorems": [
    "C97_same_source",
    "C97_writes_only_its_own",
    "C97_any_schedule",
    "C97_no_deadlock",
    "C97_every_schedule_ends"
   ],
   "note": ""
  },
  {
   "property": "C98",
   "status": "proved",
   "theorems": [
    "C98_any_crew",
    "C98_no_deadlock"
   ],
   "note": ""
  },
  {
   "property": "C99",
   "status": "proved",
   "theorems": [
    "C99_blind_to_addresses",
    "C99_one_machine",
    "C99_every_run_ends"
   ],
   "note": ""
  },
  {
   "property": "C100",
   "status": "proved",
   "theorems": [
    "C100_one_crew"
   ],
   "note": ""
  },
  {
   "property": "C101",
   "status": "proved",
   "theorems": [
    "C101_wrap_int",
    "C101_twos_complement",
    "C101_CheckWIF",
    "C101_PrivateFromWIF",
    "C101_NewMnemonic",
    "C101_NewSeedFromMnemonic",
    "C101_init",
    "C101_PrivateFromHex",
    "C101_GeneratePrivateKey",
    "C101_AddPrivateKeys",
    "C101_MultiplyPrivateKeys",
    "C101_GetPublicKey",
    "C101_PublicFromHex",
    "C101_AddPublicKeys",
    "C101_Format",
    "C101_Address"
   ],
   "note": ""
  },
  {
   "property": "C102",
   "status": "proved",
   "theorems": [
    "C102_files_are_texts",
    "C102_text_determines_file",
    "C102_no_other_source",
    "C102_written_words_are_read",
    "C102_file_has_text",
    "C102_comment_to_line_end",
    "C102_comment_in_line",
    "C102_blanks",
    "C102_empty_line"
   ],
   "note": ""
  },
  {
   "property": "C103",
   "status": "proved",
   "theorems": [
    "C103_generate_test_passes",
    "C103_generate_test_crashes",
    "C103_mnemonic_test",
    "C103_mnemonic_test_short"
   ],
   "note": ""
  },
  {
   "property": "C104",
   "status": "proved",
   "theorems": [
    "C104_GetPublicKey",
    "C104_PublicFromHex",
    "C104_AddPublicKeys",
    "C104_sessions",
    "C104_bounds_are_exact"
   ],
   "note": ""
  },
  {
   "property": "C105",
   "status": "proved",
   "theorems": [
    "C105_every_run",
    "C105_one_end",
    "C105_same_story"
   ],
   "note": ""
  },
  {
   "property": "C106",
   "status": "proved",
   "theorems": [
    "C106_any_schedule",
    "C106_no_deadlock",
    "C106_any_crew",
    "C106_crew_no_deadlock",
    "C106_one_machine",
    "C106_one_crew"
   ],
   "note": ""
  },
  {
   "property": "C107",
   "status": "proved",
   "theorems": [
    "C107_PrivateFromHex",
    "C107_PrivateFromWIF",
    "C107_GeneratePrivateKey",
    "C107_PublicFromHex",
    "C107_AddPrivateKeys",
    "C107_MultiplyPrivateKeys",
    "C107_GetPublicKey",
    "C107_AddPublicKeys",
    "C107_private_key_is_independent",
    "C107_public_key_is_independent",
    "C107_private_key_shares_network",
    "C107_public_key_shares_network",
    "C107_curve_is_safe",
    "C107_curve_is_out_of_reach",
    "C107_every_call_ends"
   ],
   "note": ""
  }
 ]
}
