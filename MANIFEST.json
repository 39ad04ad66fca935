{
 "claims": [
  {
   "property": "C01",
   "status": "proved",
   "theorems": [
    "C01_entropy_phrase_entropy"
   ],
   "note": "Proved for all inputs of the model."
  },
  {
   "property": "C02",
   "status": "proved",
   "theorems": [
    "C02_phrase_entropy_phrase"
   ],
   "note": "Proved for all inputs of the model."
  },
  {
   "property": "C03",
   "status": "proved",
   "theorems": [
    "C03_from_entropy_sizes"
   ],
   "note": "Proved for all inputs of the model."
  },
  {
   "property": "C04",
   "status": "proved",
   "theorems": [
    "C04_from_phrase_accepts_sentences"
   ],
   "note": "Proved for all inputs of the model."
  },
  {
   "property": "C05",
   "status": "proved",
   "theorems": [
    "C05_phrase_shape"
   ],
   "note": "Proved for all inputs of the model."
  },
  {
   "property": "C06",
   "status": "proved",
   "theorems": [
    "C06_words_are_bip39_groups"
   ],
   "note": "Proved for all inputs of the model."
  },
  {
   "property": "C07",
   "status": "proved",
   "theorems": [
    "C07_new_is_valid"
   ],
   "note": "Proved for all inputs of the model."
  },
  {
   "property": "C08",
   "status": "proved",
   "theorems": [
    "C08_phrases_injective"
   ],
   "note": "Proved for all inputs of the model."
  },
  {
   "property": "C09",
   "status": "proved",
   "theorems": [
    "C09_wrong_checksum_rejected",
    "C09_every_filling_is_a_phrase"
   ],
   "note": "Proved for all inputs of the model."
  },
  {
   "property": "C10",
   "status": "proved",
   "theorems": [
    "C10_spacing_ignored",
    "C10_every_text_has_a_layout"
   ],
   "note": "Proved for all inputs of the model."
  },
  {
   "property": "C11",
   "status": "proved",
   "theorems": [
    "C11_validate_agrees"
   ],
   "note": "Proved for all inputs of the model."
  },
  {
   "property": "C12",
   "status": "partial",
   "theorems": [
    "C12_validate_accepts_less",
    "C12_validate_accepts_all_refuted"
   ],
   "note": "REFUTED: a phrase with a leading space is accepted by from_phrase and rejected by validate; C12_validate_accepts_less proves this for every mnemonic."
  },
  {
   "property": "C13",
   "status": "proved",
   "theorems": [
    "C13_error_order_from_phrase",
    "C13_error_order_validate"
   ],
   "note": "Proved for all inputs of the model."
  },
  {
   "property": "C14",
   "status": "proved",
   "theorems": [
    "C14_bip39_no_panic"
   ],
   "note": "Proved for all inputs of the model."
  },
  {
   "property": "C15",
   "status": "proved",
   "theorems": [
    "C15_type_table"
   ],
   "note": "Proved for all inputs of the model."
  },
  {
   "property": "C16",
   "status": "proved",
   "theorems": [
    "C16_for_phrase"
   ],
   "note": "Proved for all inputs of the model."
  },
  {
   "property": "C17",
   "status": "proved",
   "theorems": [
    "C17_wordlist_wordmap_inverse"
   ],
   "note": "Proved for all inputs of the model."
  },
  {
   "property": "C18",
   "status": "proved",
   "theorems": [
    "C18_prefix_search_any",
    "C18_searches_conform",
    "C18_prefix_search_english"
   ],
   "note": "Proved for all inputs of the model."
  },
  {
   "property": "C19",
   "status": "partial",
   "theorems": [
    "C19_prefix_search_chinese_refuted",
    "C19_prefix_search_partial"
   ],
   "note": "REFUTED: the Chinese list is not sorted, so the binary search of either Rust version misses words; the first word of the list is not found under its own prefix. C19_prefix_search_partial proves that whatever is returned are words of the list starting with the prefix, in list order. English is covered by C18."
  },
  {
   "property": "C20",
   "status": "proved",
   "theorems": [
    "C20_language_codes",
    "C20_default_language"
   ],
   "note": "Proved for all inputs of the model."
  },
  {
   "property": "C21",
   "status": "proved",
   "theorems": [
    "C21_language_detection"
   ],
   "note": "Proved for all inputs of the model."
  },
  {
   "property": "C22",
   "status": "proved",
   "theorems": [
    "C22_seed_english"
   ],
   "note": "Proved for all inputs of the model."
  },
  {
   "property": "C23",
   "status": "partial",
   "theorems": [
    "C23_seed_chinese_partial",
    "C23_kdf_password_differs",
    "C23_seed_chinese_refuted",
    "C23_seed_value_refuted"
   ],
   "note": "REFUTED: for Simplified Chinese the PBKDF2 password is the GB18030 encoding of the phrase, which differs from the UTF-8 encoding for every mnemonic; C23_seed_chinese_partial proves what the seed is instead, C23_seed_value_refuted computes one seed and the standard one (by way of the 63-bit machine integers of the standard library)."
  },
  {
   "property": "C24",
   "status": "proved",
   "theorems": [
    "C24_seed_is_64_bytes"
   ],
   "note": "Proved for all inputs of the model."
  },
  {
   "property": "C25",
   "status": "proved",
   "theorems": [
    "C25_password_normalised"
   ],
   "note": "Proved for all inputs of the model."
  },
  {
   "property": "C26",
   "status": "proved",
   "theorems": [
    "C26_hex_formatting"
   ],
   "note": "Proved for all inputs of the model."
  },
  {
   "property": "C27",
   "status": "proved",
   "theorems": [
    "C27_phrase_kept"
   ],
   "note": "Proved for all inputs of the model."
  },
  {
   "property": "C28",
   "status": "proved",
   "theorems": [
    "C28_child_number_fields"
   ],
   "note": "Proved for all inputs of the model."
  },
  {
   "property": "C29",
   "status": "proved",
   "theorems": [
    "C29_child_text_round_trip"
   ],
   "note": "Proved for all inputs of the model."
  },
  {
   "property": "C30",
   "status": "proved",
   "theorems": [
    "C30_child_grammar"
   ],
   "note": "Proved for all inputs of the model."
  },
  {
   "property": "C31",
   "status": "proved",
   "theorems": [
    "C31_child_bytes"
   ],
   "note": "Proved for all inputs of the model."
  },
  {
   "property": "C32",
   "status": "proved",
   "theorems": [
    "C32_path_text_round_trip"
   ],
   "note": "Proved for all inputs of the model."
  },
  {
   "property": "C33",
   "status": "proved",
   "theorems": [
    "C33_path_grammar"
   ],
   "note": "Proved for all inputs of the model."
  },
  {
   "property": "C34",
   "status": "proved",
   "theorems": [
    "C34_path_operations"
   ],
   "note": "Proved for all inputs of the model."
  },
  {
   "property": "C35",
   "status": "proved",
   "theorems": [
    "C35_text_fits"
   ],
   "note": "Proved for all inputs of the model."
  },
  {
   "property": "C36",
   "status": "proved",
   "theorems": [
    "C36_text_determines_key"
   ],
   "note": "Proved for all inputs of the model."
  },
  {
   "property": "C37",
   "status": "proved",
   "theorems": [
    "C37_parsing_is_strict"
   ],
   "note": "Proved for all inputs of the model."
  },
  {
   "property": "C38",
   "status": "proved",
   "theorems": [
    "C38_parsing_checks_checksum"
   ],
   "note": "Proved for all inputs of the model."
  },
  {
   "property": "C39",
   "status": "proved",
   "theorems": [
    "C39_standard_prefixes_stable"
   ],
   "note": "Proved for all inputs of the model."
  },
  {
   "property": "C40",
   "status": "proved",
   "theorems": [
    "C40_private_round_trip"
   ],
   "note": "Proved for all inputs of the model."
  },
  {
   "property": "C41",
   "status": "proved",
   "theorems": [
    "C41_public_round_trip"
   ],
   "note": "Proved for all inputs of the model."
  },
  {
   "property": "C42",
   "status": "proved",
   "theorems": [
    "C42_never_both",
    "C42_public_text_is_not_private",
    "C42_private_text_is_not_public",
    "C42_standard_prefixes"
   ],
   "note": "Proved for all inputs of the model."
  },
  {
   "property": "C43",
   "status": "proved",
   "theorems": [
    "C43_valid_private_keys",
    "C43_other_material_rejected"
   ],
   "note": "Proved for all inputs of the model."
  },
  {
   "property": "C44",
   "status": "proved",
   "theorems": [
    "C44_curve_points",
    "C44_other_material_rejected"
   ],
   "note": "Proved for all inputs of the model."
  },
  {
   "property": "C45",
   "status": "partial",
   "theorems": [
    "C45_root_metadata_refuted",
    "C45_root_metadata_ignored"
   ],
   "note": "REFUTED: the parsers ignore this rule; C45_root_metadata_ignored proves that every depth-0 key with arbitrary fingerprint and child number is accepted."
  },
  {
   "property": "C46",
   "status": "proved",
   "theorems": [
    "C46_prefix_from_version",
    "C46_prefix_bytes",
    "C46_constants",
    "C46_registered_versions"
   ],
   "note": "Proved for all inputs of the model."
  },
  {
   "property": "C47",
   "status": "partial",
   "theorems": [
    "C47_prefix_survives_refuted",
    "C47_unreadable_keys",
    "C47_prefix_survives_partial"
   ],
   "note": "REFUTED: the four characters are computed for an all-zero key; for version 0x024285bb (Uprv) every private key of depth 3 or more is written as Uprw... and rejected by from_str (C47_unreadable_keys). C47_prefix_survives_partial proves that version, attributes and key always survive and the prefix does iff the text starts with its characters. The eight standard prefixes are covered by C39 - C41."
  },
  {
   "property": "C48",
   "status": "proved",
   "theorems": [
    "C48_never_both",
    "C48_parts"
   ],
   "note": "Proved for all inputs of the model."
  },
  {
   "property": "C49",
   "status": "proved",
   "theorems": [
    "C49_master_key"
   ],
   "note": "Proved for all inputs of the model."
  },
  {
   "property": "C50",
   "status": "proved",
   "theorems": [
    "C50_private_child"
   ],
   "note": "Proved for all inputs of the model."
  },
  {
   "property": "C51",
   "status": "proved",
   "theorems": [
    "C51_public_child"
   ],
   "note": "Proved for all inputs of the model."
  },
  {
   "property": "C52",
   "status": "proved",
   "theorems": [
    "C52_public_private_agree"
   ],
   "note": "Proved for all inputs of the model."
  },
  {
   "property": "C53",
   "status": "proved",
   "theorems": [
    "C53_watch_only"
   ],
   "note": "Proved for all inputs of the model."
  },
  {
   "property": "C54",
   "status": "proved",
   "theorems": [
    "C54_path_composes",
    "C54_first_error"
   ],
   "note": "Proved for all inputs of the model."
  },
  {
   "property": "C55",
   "status": "proved",
   "theorems": [
    "C55_depth_private",
    "C55_depth_public",
    "C55_depth_from_seed"
   ],
   "note": "Proved for all inputs of the model."
  },
  {
   "property": "C56",
   "status": "proved",
   "theorems": [
    "C56_hardened_needs_private",
    "C56_error",
    "C56_no_hardened_child"
   ],
   "note": "Proved for all inputs of the model."
  },
  {
   "property": "C57",
   "status": "proved",
   "theorems": [
    "C57_private_keys_valid",
    "C57_public_keys_valid"
   ],
   "note": "Proved for all inputs of the model."
  },
  {
   "property": "C58",
   "status": "proved",
   "theorems": [
    "C58_fingerprint_private",
    "C58_fingerprint_public"
   ],
   "note": "Proved for all inputs of the model."
  },
  {
   "property": "C59",
   "status": "partial",
   "theorems": [
    "C59_bad_hash_panics",
    "C59_bad_hash_is_error_refuted",
    "C59_master_key_partial"
   ],
   "note": "REFUTED: private_key.rs:48 and public_key.rs:51 unwrap the parse of the tweak, so derive_child panics on every bad hash output (C59_bad_hash_panics); only XPrv::new reports it (C59_master_key_partial)."
  },
  {
   "property": "C60",
   "status": "proved",
   "theorems": [
    "C60_private_step",
    "C60_public_step",
    "C60_private_path",
    "C60_public_path",
    "C60_seed_path",
    "C60_other_entry_points"
   ],
   "note": "Proved for all inputs of the model."
  },
  {
   "property": "C61",
   "status": "proved",
   "theorems": [
    "C61_equality_is_equivalence"
   ],
   "note": "Proved for all inputs of the model."
  },
  {
   "property": "C62",
   "status": "partial",
   "theorems": [
    "C62_equality_ignores_the_secret",
    "C62_equal_keys_same_secret_refuted",
    "C62_equality_compares_attributes_partial"
   ],
   "note": "REFUTED: ct_eq (extended_private_key.rs:182-200) takes both key byte strings from self, so keys with equal attributes and different secrets compare equal; C62_equality_compares_attributes_partial says what == decides."
  },
  {
   "property": "C63",
   "status": "proved",
   "theorems": [
    "C63_debug_hides_secret",
    "C63_debug_text"
   ],
   "note": "Proved for all inputs of the model."
  },
  {
   "property": "C64",
   "status": "proved",
   "theorems": [
    "C64_signatures_are_valid"
   ],
   "note": "Proved for all inputs of the model."
  },
  {
   "property": "C65",
   "status": "proved",
   "theorems": [
    "C65_only_length_errors",
    "C65_deterministic"
   ],
   "note": "Proved for all inputs of the model."
  },
  {
   "property": "C66",
   "status": "proved",
   "theorems": [
    "C66_ripemd_hex"
   ],
   "note": "Proved for all inputs of the model."
  },
  {
   "property": "C67",
   "status": "proved",
   "theorems": [
    "C67_words_and_password_decide",
    "C67_english_wallet",
    "C67_errors"
   ],
   "note": "Proved for all inputs of the model."
  },
  {
   "property": "C68",
   "status": "proved",
   "theorems": [
    "C68_nonce_follows_rfc6979"
   ],
   "note": "Proved for all inputs of the model."
  },
  {
   "property": "C69",
   "status": "partial",
   "theorems": [
    "C69_upper_hint_refuted",
    "C69_size_hint_partial"
   ],
   "note": "REFUTED: the hint ignores buffered bits; after the first of 17 bytes it says at most 10 where 11 items follow. C69_size_hint_partial proves the lower bound, that the upper bound is short by at most one, and exactness before the first item."
  },
  {
   "property": "C70",
   "status": "proved",
   "theorems": [
    "C70_phrase_buffer",
    "C70_bit_writer_capacity",
    "C70_least_capacity"
   ],
   "note": "Proved for all inputs of the model."
  },
  {
   "property": "C71",
   "status": "partial",
   "theorems": [
    "C71_accepted_phrase_moved",
    "C71_phrase_not_moved_refuted"
   ],
   "note": "REFUTED: the lower size hint of SplitWhitespace is 0, so nothing is reserved; C71_accepted_phrase_moved proves that every accepted phrase is moved at least once. Growth follows RawVec::grow_amortized of the Rust standard library."
  },
  {
   "property": "C72",
   "status": "proved",
   "theorems": [
    "C72_last_words"
   ],
   "note": "Proved for all inputs of the model."
  },
  {
   "property": "C73",
   "status": "proved",
   "theorems": [
    "C73_password_bytes_injective"
   ],
   "note": "Proved for all inputs of the model."
  },
  {
   "property": "C74",
   "status": "proved",
   "theorems": [
    "C74_debug_is_quoted_phrase"
   ],
   "note": "Proved for all inputs of the model."
  },
  {
   "property": "C75",
   "status": "proved",
   "theorems": [
    "C75_error_texts",
    "C75_texts_exact"
   ],
   "note": "Proved for all inputs of the model."
  },
  {
   "property": "C76",
   "status": "proved",
   "theorems": [
    "C76_unicode_form_ignored",
    "C76_normalising_first"
   ],
   "note": "Proved for all inputs of the model."
  },
  {
   "property": "C77",
   "status": "proved",
   "theorems": [
    "C77_four_letters_identify",
    "C77_prefix_completion"
   ],
   "note": "Proved for all inputs of the model."
  },
  {
   "property": "C78",
   "status": "proved",
   "theorems": [
    "C78_child_reveals_parent"
   ],
   "note": "Proved for all inputs of the model."
  },
  {
   "property": "C79",
   "status": "proved",
   "theorems": [
    "C79_public_key_identifies"
   ],
   "note": "Proved for all inputs of the model."
  },
  {
   "property": "C80",
   "status": "proved",
   "theorems": [
    "C80_watch_only_verifies"
   ],
   "note": "Proved for all inputs of the model."
  },
  {
   "property": "C81",
   "status": "proved",
   "theorems": [
    "C81_recovery_is_unique",
    "C81_signature_identifies_signer"
   ],
   "note": "Proved for all inputs of the model."
  },
  {
   "property": "C82",
   "status": "proved",
   "theorems": [
    "C82_prefix_texts",
    "C82_debug_identifies_prefix"
   ],
   "note": "Proved for all inputs of the model."
  },
  {
   "property": "C83",
   "status": "proved",
   "theorems": [
    "C83_error_texts",
    "C83_parsing_errors",
    "C83_derivation_errors"
   ],
   "note": "Proved for all inputs of the model."
  },
  {
   "property": "C84",
   "status": "proved",
   "theorems": [
    "C84_siblings_collide",
    "C84_seeds_collide"
   ],
   "note": "Proved for all inputs of the model."
  },
  {
   "property": "C85",
   "status": "proved",
   "theorems": [
    "C85_private_keys_travel",
    "C85_public_keys_travel"
   ],
   "note": "Proved for all inputs of the model."
  },
  {
   "property": "C86",
   "status": "proved",
   "theorems": [
    "C86_child_order",
    "C86_attrs_order",
    "C86_prefix_order"
   ],
   "note": "Proved for all inputs of the model."
  },
  {
   "property": "C87",
   "status": "proved",
   "theorems": [
    "C87_debug_shows_attributes",
    "C87_equality_is_debug_equality"
   ],
   "note": "Proved for all inputs of the model."
  },
  {
   "property": "C88",
   "status": "proved",
   "theorems": [
    "C88_paths_and_keys"
   ],
   "note": "Proved for all inputs of the model."
  },
  {
   "property": "C89",
   "status": "proved",
   "theorems": [
    "C89_signatures_are_malleable",
    "C89_signer_returns_one_form"
   ],
   "note": "Proved for all inputs of the model."
  },
  {
   "property": "C90",
   "status": "proved",
   "theorems": [
    "C90_sha2",
    "C90_uses"
   ],
   "note": "Proved for all inputs of the model."
  },
  {
   "property": "C91",
   "status": "proved",
   "theorems": [
    "C91_hmac"
   ],
   "note": "Proved for all inputs of the model."
  },
  {
   "property": "C92",
   "status": "proved",
   "theorems": [
    "C92_ripemd",
    "C92_fingerprint"
   ],
   "note": "Proved for all inputs of the model."
  },
  {
   "property": "C93",
   "status": "proved",
   "theorems": [
    "C93_seed_from_standards"
   ],
   "note": "Proved for all inputs of the model."
  },
  {
   "property": "C94",
   "status": "proved",
   "theorems": [
    "C94_nfkd",
    "C94_complete"
   ],
   "note": "Proved for all inputs of the model."
  },
  {
   "property": "C95",
   "status": "proved",
   "theorems": [
    "C95_utf8",
    "C95_decodable",
    "C95_salts"
   ],
   "note": "Proved for all inputs of the model."
  },
  {
   "property": "C96",
   "status": "partial",
   "theorems": [
    "C96_same_results",
    "C96_wiped_partial",
    "C96_wrong_checksum_leaves_key",
    "C96_bad_character_leaves_prefix",
    "C96_wrong_length_leaves_payload",
    "C96_always_wiped_refuted"
   ],
   "note": "REFUTED: mod.rs:73-83 return before the array is wiped; every text of 78 bytes with a wrong checksum (a typing error) leaves the whole key behind (C96_wrong_checksum_leaves_key). C96_wiped_partial proves that it is wiped whenever the text is accepted."
  },
  {
   "property": "C97",
   "status": "proved",
   "theorems": [
    "C97_writer_wipes"
   ],
   "note": "Proved for all inputs of the model."
  },
  {
   "property": "C98",
   "status": "partial",
   "theorems": [
    "C98_display_leaves_text",
    "C98_display_wipes_refuted"
   ],
   "note": "REFUTED: nothing wipes the buffer of Display (mod.rs:59-66); C98_display_leaves_text proves that it holds the text of the key."
  },
  {
   "property": "C99",
   "status": "proved",
   "theorems": [
    "C99_low_recovery_ids_are_valid",
    "C99_valid_or_abscissa_n",
    "C99_two_bad_nonces"
   ],
   "note": "Proved for all inputs of the model."
  },
  {
   "property": "C100",
   "status": "proved",
   "theorems": [
    "C100_repeated_nonce_reveals_key"
   ],
   "note": "Proved for all inputs of the model."
  },
  {
   "property": "C101",
   "status": "proved",
   "theorems": [
    "C101_signature_determines_digest"
   ],
   "note": "Proved for all inputs of the model."
  },
  {
   "property": "C102",
   "status": "proved",
   "theorems": [
    "C102_every_public_key_has_one_secret",
    "C102_accepted_texts"
   ],
   "note": "Proved for all inputs of the model."
  },
  {
   "property": "C103",
   "status": "proved",
   "theorems": [
    "C103_equal_public_keys",
    "C103_compare_private_keys"
   ],
   "note": "Proved for all inputs of the model."
  },
  {
   "property": "C104",
   "status": "proved",
   "theorems": [
    "C104_all_valid_signatures"
   ],
   "note": "Proved for all inputs of the model."
  },
  {
   "property": "C105",
   "status": "proved",
   "theorems": [
    "C105_master_key",
    "C105_private_child",
    "C105_public_child",
    "C105_paths",
    "C105_text_written",
    "C105_text_read"
   ],
   "note": "Proved for all inputs of the model."
  },
  {
   "property": "C106",
   "status": "proved",
   "theorems": [
    "C106_english_wallet_from_standards",
    "C106_key_determined"
   ],
   "note": "Proved for all inputs of the model."
  },
  {
   "property": "C107",
   "status": "proved",
   "theorems": [
    "C107_signatures_from_standards"
   ],
   "note": "Proved for all inputs of the model."
  },
  {
   "property": "C108",
   "status": "proved",
   "theorems": [
    "C108_everything_is_well_formed",
    "C108_and_everything_well_formed_is_obtained",
    "C108_seeds"
   ],
   "note": "Proved for all inputs of the model."
  },
  {
   "property": "C109",
   "status": "proved",
   "theorems": [
    "C109_the_calls_that_panic"
   ],
   "note": "Proved for all inputs of the model."
  },
  {
   "property": "C110",
   "status": "partial",
   "theorems": [
    "C110_same_results",
    "C110_accepted_partial",
    "C110_entropy_left",
    "C110_typing_error",
    "C110_wrong_count",
    "C110_nothing_left_refuted",
    "C110_growth",
    "C110_reserve"
   ],
   "note": "REFUTED: mnemonic.rs:177-181 drops the plain vector, and the question marks of lines 152, 195, 198 and 217 drop it before it is wrapped (C110_entropy_left, C110_typing_error, C110_wrong_count). C110_accepted_partial proves that an accepted phrase leaves nothing in from_phrase."
  },
  {
   "property": "C111",
   "status": "partial",
   "theorems": [
    "C111_same_results",
    "C111_plain_text",
    "C111_everything_left",
    "C111_nothing_left_refuted"
   ],
   "note": "REFUTED: seed.rs:33-35 uses plain strings and a plain vector (C111_plain_text, C111_everything_left)."
  },
  {
   "property": "C112",
   "status": "proved",
   "theorems": [
    "C112_texts_read_back",
    "C112_hex_texts",
    "C112_plain_texts",
    "C112_flags_ignored",
    "C112_debug_texts"
   ],
   "note": "Proved for all inputs of the model."
  },
  {
   "property": "C113",
   "status": "partial",
   "theorems": [
    "C113_padded_reads_back_partial",
    "C113_width",
    "C113_reads_back_refuted"
   ],
   "note": "REFUTED: a precision cuts words off, and fill letters join the words (C113_reads_back_refuted). C113_padded_reads_back_partial settles every case with white space as fill."
  },
  {
   "property": "C114",
   "status": "proved",
   "theorems": [
    "C114_no_flag_shows_the_key",
    "C114_attributes_shown"
   ],
   "note": "Proved for all inputs of the model."
  },
  {
   "property": "C115",
   "status": "partial",
   "theorems": [
    "C115_debug_shows_everything",
    "C115_debug_hides_refuted"
   ],
   "note": "REFUTED: seed.rs:52-56 prints the seed, mnemonic.rs:288-292 the phrase (C115_debug_shows_everything)."
  },
  {
   "property": "C116",
   "status": "proved",
   "theorems": [
    "C116_bits_written",
    "C116_bits_read",
    "C116_round_trip"
   ],
   "note": "Proved for all inputs of the model."
  },
  {
   "property": "C117",
   "status": "proved",
   "theorems": [
    "C117_white_space",
    "C117_words",
    "C117_from_phrase"
   ],
   "note": "Proved for all inputs of the model."
  },
  {
   "property": "C118",
   "status": "proved",
   "theorems": [
    "C118_generation_is_uniform"
   ],
   "note": "Proved for all inputs of the model."
  },
  {
   "property": "C119",
   "status": "partial",
   "theorems": [
    "C119_noticed_partial",
    "C119_wrong_last_word",
    "C119_exchanged_words_refuted"
   ],
   "note": "REFUTED by C119_exchanged_words_refuted and, for every phrase, by C119_wrong_last_word. C119_noticed_partial proves the mistakes that are always noticed."
  },
  {
   "property": "C120",
   "status": "proved",
   "theorems": [
    "C120_from_phrase",
    "C120_validate",
    "C120_from_entropy",
    "C120_generated",
    "C120_round_trip",
    "C120_same_without_features"
   ],
   "note": "Proved for all inputs of the model."
  },
  {
   "property": "C121",
   "status": "proved",
   "theorems": [
    "C121_word_lists",
    "C121_list_and_map",
    "C121_translation"
   ],
   "note": "Proved for all inputs of the model."
  },
  {
   "property": "C122",
   "status": "proved",
   "theorems": [
    "C122_language_codes",
    "C122_codes_differ"
   ],
   "note": "Proved for all inputs of the model."
  },
  {
   "property": "C123",
   "status": "proved",
   "theorems": [
    "C123_prefix_search"
   ],
   "note": "Proved for all inputs of the model."
  },
  {
   "property": "C124",
   "status": "partial",
   "theorems": [
    "C124_prefix_search_refuted",
    "C124_prefix_search_partial"
   ],
   "note": "REFUTED in each of the four languages by C124_prefix_search_refuted. C124_prefix_search_partial proves that what is returned is right."
  },
  {
   "property": "C125",
   "status": "partial",
   "theorems": [
    "C125_what_is_detected",
    "C125_detection_partial",
    "C125_never_detected",
    "C125_detection_refuted"
   ],
   "note": "REFUTED by C125_detection_refuted and, for every mnemonic of the six languages, by C125_never_detected. C125_detection_partial proves it for English and Simplified Chinese."
  },
  {
   "property": "C126",
   "status": "partial",
   "theorems": [
    "C126_when_it_moves",
    "C126_phrase_buffer_partial",
    "C126_korean_always_moves",
    "C126_phrase_buffer_refuted"
   ],
   "note": "REFUTED for five languages by C126_phrase_buffer_refuted. C126_phrase_buffer_partial proves it for the other three; C126_when_it_moves is the exact criterion."
  },
  {
   "property": "C127",
   "status": "proved",
   "theorems": [
    "C127_seeds"
   ],
   "note": "Proved for all inputs of the model."
  },
  {
   "property": "C128",
   "status": "proved",
   "theorems": [
    "C128_four_letters_identify",
    "C128_korean_needs_more"
   ],
   "note": "Proved for all inputs of the model."
  },
  {
   "property": "C129",
   "status": "partial",
   "theorems": [
    "C129_one_language_partial",
    "C129_chinese",
    "C129_english_french",
    "C129_one_language_refuted"
   ],
   "note": "REFUTED by C129_one_language_refuted for English/French and for the two Chinese lists. C129_one_language_partial proves it for all other pairs."
  },
  {
   "property": "C130",
   "status": "proved",
   "theorems": [
    "C130_builds_agree"
   ],
   "note": "Proved for all inputs of the model."
  },
  {
   "property": "C131",
   "status": "partial",
   "theorems": [
    "C131_without_checks",
    "C131_with_checks",
    "C131_appended_words",
    "C131_length_checked_refuted",
    "C131_from_phrase"
   ],
   "note": "REFUTED for validate on 32 bits without overflow checks by C131_length_checked_refuted (C131_without_checks is the exact criterion, C131_with_checks says when it panics). C131_from_phrase proves it for from_phrase in every build."
  },
  {
   "property": "C132",
   "status": "partial",
   "theorems": [
    "C132_without_checks",
    "C132_with_checks",
    "C132_long_chinese",
    "C132_refused_refuted"
   ],
   "note": "REFUTED on 32 bits by C132_refused_refuted. C132_without_checks and C132_with_checks say what happens to every length."
  },
  {
   "property": "C133",
   "status": "proved",
   "theorems": [
    "C133_private_child",
    "C133_public_child",
    "C133_paths_compose",
    "C133_depth",
    "C133_hardened",
    "C133_libsecp"
   ],
   "note": "Proved for all inputs of the model."
  },
  {
   "property": "C134",
   "status": "proved",
   "theorems": [
    "C134_private_round_trip",
    "C134_public_round_trip",
    "C134_strict",
    "C134_strict_public",
    "C134_never_both"
   ],
   "note": "Proved for all inputs of the model."
  },
  {
   "property": "C135",
   "status": "proved",
   "theorems": [
    "C135_one_step",
    "C135_paths",
    "C135_libsecp"
   ],
   "note": "Proved for all inputs of the model."
  },
  {
   "property": "C136",
   "status": "partial",
   "theorems": [
    "C136_equality",
    "C136_same_key_refuted"
   ],
   "note": "REFUTED for every key type with two keys by C136_same_key_refuted. C136_equality says what == compares."
  },
  {
   "property": "C137",
   "status": "proved",
   "theorems": [
    "C137_no_panics",
    "C137_libsecp_panics"
   ],
   "note": "Proved for all inputs of the model."
  },
  {
   "property": "C138",
   "status": "partial",
   "theorems": [
    "C138_seed_lengths_refuted",
    "C138_refused_lengths",
    "C138_seed_lengths_partial"
   ],
   "note": "REFUTED by C138_seed_lengths_refuted (a seed of 24 bytes is refused). C138_refused_lengths is the exact criterion; C138_seed_lengths_partial covers the lengths for which the check is right; missing: 17 to 63 bytes other than 32, and 128 bytes, for which it is wrong."
  },
  {
   "property": "C139",
   "status": "partial",
   "theorems": [
    "C139_step",
    "C139_debug_result",
    "C139_debug_valid",
    "C139_builds_agree_partial",
    "C139_builds_agree_refuted"
   ],
   "note": "REFUTED for the signing step by C139_builds_agree_refuted (a nonce whose point has abscissa n). C139_builds_agree_partial: the debug build returns the same or panics; missing: the panics. C139_step is the exact criterion for one step. Whether the generator of some key and message ever produces such a nonce is not decided. The inner steps of libsecp256k1 were modelled from memory of it and not compared with its source (DESIGN.md, section 3)."
  },
  {
   "property": "C140",
   "status": "proved",
   "theorems": [
    "C140_words_found",
    "C140_chinese"
   ],
   "note": "Proved for all inputs of the model."
  },
  {
   "property": "C141",
   "status": "proved",
   "theorems": [
    "C141_parameters",
    "C141_group"
   ],
   "note": "Proved for all inputs of the model."
  },
  {
   "property": "C142",
   "status": "proved",
   "theorems": [
    "C142_checksums",
    "C142_pins",
    "C142_gb18030"
   ],
   "note": "Proved for all inputs of the model."
  },
  {
   "property": "C143",
   "status": "proved",
   "theorems": [
    "C143_slices",
    "C143_comparison",
    "C143_same_steps"
   ],
   "note": "Proved for all inputs of the model. The inner steps of subtle were modelled from memory of it and not compared with its source (DESIGN.md, section 3)."
  },
  {
   "property": "C144",
   "status": "proved",
   "theorems": [
    "C144_block_decides",
    "C144_blocks_differ",
    "C144_short_phrases"
   ],
   "note": "Proved for all inputs of the model."
  },
  {
   "property": "C145",
   "status": "proved",
   "theorems": [
    "C145_checksums",
    "C145_pins"
   ],
   "note": "Proved for all inputs of the model."
  },
  {
   "property": "C146",
   "status": "proved",
   "theorems": [
    "C146_decompositions",
    "C146_classes",
    "C146_pins_decompositions",
    "C146_pins_classes"
   ],
   "note": "Proved for all inputs of the model."
  },
  {
   "property": "C147",
   "status": "proved",
   "theorems": [
    "C147_wiping_is_safe"
   ],
   "note": "Proved for all inputs of the model. The inner steps of zeroize were modelled from memory of it and not compared with its source (DESIGN.md, section 3)."
  },
  {
   "property": "C148",
   "status": "proved",
   "theorems": [
    "C148_secrets_are_wiped",
    "C148_on_drop"
   ],
   "note": "Proved for all inputs of the model. The inner steps of zeroize were modelled from memory of it and not compared with its source (DESIGN.md, section 3)."
  },
  {
   "property": "C149",
   "status": "partial",
   "theorems": [
    "C149_keys_stay",
    "C149_keys_wiped_refuted"
   ],
   "note": "REFUTED by C149_keys_wiped_refuted. C149_keys_stay says which blocks keep their data, in every continuation. The inner steps of zeroize were modelled from memory of it and not compared with its source (DESIGN.md, section 3)."
  },
  {
   "property": "C150",
   "status": "proved",
   "theorems": [
    "C150_threads_see_the_published_tables"
   ],
   "note": "Proved for all inputs of the model. The inner steps of once_cell were modelled from memory of it and not compared with its source (DESIGN.md, section 3)."
  },
  {
   "property": "C151",
   "status": "proved",
   "theorems": [
    "C151_no_deadlock",
    "C151_no_endless_execution",
    "C151_all_threads_can_finish"
   ],
   "note": "Proved for all inputs of the model. The inner steps of once_cell were modelled from memory of it and not compared with its source (DESIGN.md, section 3)."
  },
  {
   "property": "C152",
   "status": "proved",
   "theorems": [
    "C152_kinds_do_not_overlap"
   ],
   "note": "Proved for all inputs of the model."
  },
  {
   "property": "C153",
   "status": "partial",
   "theorems": [
    "C153_private_key_under_public_label",
    "C153_label_tells_refuted",
    "C153_label_tells_partial"
   ],
   "note": "REFUTED by C153_label_tells_refuted; C153_private_key_under_public_label covers every key and public prefix. C153_label_tells_partial is what holds: the readers of XPrv and XPub follow the label."
  },
  {
   "property": "C154",
   "status": "partial",
   "theorems": [
    "C154_inner_versions_round_trip",
    "C154_versions_behind_a_label",
    "C154_only_registered_refuted",
    "C154_several_texts_of_a_key"
   ],
   "note": "REFUTED by C154_only_registered_refuted. C154_versions_behind_a_label gives exactly the versions that are read under each label, C154_inner_versions_round_trip and C154_several_texts_of_a_key the consequences."
  },
  {
   "property": "C155",
   "status": "proved",
   "theorems": [
    "C155_wallet_from_standards",
    "C155_key_determined"
   ],
   "note": "Proved for all inputs of the model."
  },
  {
   "property": "C156",
   "status": "proved",
   "theorems": [
    "C156_master_keys",
    "C156_private_children",
    "C156_never_the_parent",
    "C156_siblings_unrelated",
    "C156_public_children",
    "C156_public_never_the_parent"
   ],
   "note": "Proved for all inputs of the model."
  },
  {
   "property": "C157",
   "status": "proved",
   "theorems": [
    "C157_same_results",
    "C157_bounded_work",
    "C157_linear_work"
   ],
   "note": "Proved for all inputs of the model."
  },
  {
   "property": "C158",
   "status": "proved",
   "theorems": [
    "C158_same_results",
    "C158_private_paths",
    "C158_public_paths",
    "C158_from_seed"
   ],
   "note": "Proved for all inputs of the model."
  },
  {
   "property": "C159",
   "status": "partial",
   "theorems": [
    "C159_same_results",
    "C159_all_words_looked_up",
    "C159_up_to_the_first_unknown",
    "C159_long_phrases_read_in_full",
    "C159_stops_after_24_words_refuted",
    "C159_linear_work",
    "C159_normalised_length"
   ],
   "note": "REFUTED by C159_stops_after_24_words_refuted; C159_long_phrases_read_in_full has a witness for every length and language. C159_all_words_looked_up and C159_up_to_the_first_unknown give the exact number of look-ups, C159_linear_work and C159_normalised_length the bounds that hold."
  },
  {
   "property": "C160",
   "status": "proved",
   "theorems": [
    "C160_parse",
    "C160_serialize",
    "C160_add",
    "C160_same_keys"
   ],
   "note": "Proved for all inputs of the model. The inner steps of libsecp256k1 were modelled from memory of it and not compared with its source (DESIGN.md, section 3)."
  },
  {
   "property": "C161",
   "status": "proved",
   "theorems": [
    "C161_mul",
    "C161_sqr",
    "C161_product"
   ],
   "note": "Proved for all inputs of the model. The inner steps of libsecp256k1 were modelled from memory of it and not compared with its source (DESIGN.md, section 3)."
  },
  {
   "property": "C162",
   "status": "proved",
   "theorems": [
    "C162_inverse",
    "C162_inverse_of_zero",
    "C162_negation"
   ],
   "note": "Proved for all inputs of the model. The inner steps of libsecp256k1 were modelled from memory of it and not compared with its source (DESIGN.md, section 3)."
  },
  {
   "property": "C163",
   "status": "proved",
   "theorems": [
    "C163_one_nonce",
    "C163_digest",
    "C163_same_signatures"
   ],
   "note": "Proved for all inputs of the model. The inner steps of libsecp256k1 were modelled from memory of it and not compared with its source (DESIGN.md, section 3)."
  },
  {
   "property": "C164",
   "status": "partial",
   "theorems": [
    "C164_one_text_refuted",
    "C164_all_texts",
    "C164_printed_is_shortest",
    "C164_root_has_one",
    "C164_others_have_many"
   ],
   "note": "REFUTED by C164_one_text_refuted (m/5 and m/+05). C164_all_texts gives exactly the texts of every path, C164_printed_is_shortest, C164_root_has_one and C164_others_have_many what holds instead."
  },
  {
   "property": "C165",
   "status": "proved",
   "theorems": [
    "C165_marks_kept",
    "C165_other_characters_refused"
   ],
   "note": "Proved for all inputs of the model."
  },
  {
   "property": "C166",
   "status": "partial",
   "theorems": [
    "C166_refused_refuted",
    "C166_when_refused",
    "C166_printed_seed",
    "C166_another_wallet",
    "C166_entropy"
   ],
   "note": "REFUTED by C166_refused_refuted. C166_when_refused is the exact criterion for every hexadecimal text; C166_printed_seed, C166_another_wallet and C166_entropy say what happens instead."
  },
  {
   "property": "C167",
   "status": "partial",
   "theorems": [
    "C167_refused_refuted",
    "C167_when_refused",
    "C167_by_number_of_words",
    "C167_taken_for_every_number_of_words",
    "C167_chinese_partial"
   ],
   "note": "REFUTED by C167_refused_refuted (an English phrase of 64 bytes). C167_when_refused is the exact criterion; C167_by_number_of_words says which of the two lengths can occur and C167_taken_for_every_number_of_words has a witness for each; C167_chinese_partial: phrases in Simplified Chinese are always refused; missing: the English phrases of 64 and 128 bytes."
  }
 ]
}