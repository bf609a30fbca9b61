{
 "claims": [
  {
   "property": "C01",
   "status": "proved",
   "theorems": [
    "C01_protocol_completes"
   ],
   "note": ""
  },
  {
   "property": "C02",
   "status": "proved",
   "theorems": [
    "C02_c_protocol"
   ],
   "note": ""
  },
  {
   "property": "C03",
   "status": "proved",
   "theorems": [
    "C03_mac_succeeds",
    "C03_mac_fails",
    "C03_mac_verifies"
   ],
   "note": ""
  },
  {
   "property": "C04",
   "status": "proved",
   "theorems": [
    "C04_verify_exact",
    "C04_verify_pins_sum",
    "C04_verify_pins_attribute"
   ],
   "note": ""
  },
  {
   "property": "C05",
   "status": "proved",
   "theorems": [
    "C05_identity_tag_accepted_refuted"
   ],
   "note": "The claim is false of the code: the identity tag is accepted for every key and message."
  },
  {
   "property": "C06",
   "status": "proved",
   "theorems": [
    "C06_longer_message_accepted_refuted",
    "C06_shorter_message_accepted_refuted"
   ],
   "note": ""
  },
  {
   "property": "C07",
   "status": "proved",
   "theorems": [
    "C07_rerandomised"
   ],
   "note": ""
  },
  {
   "property": "C08",
   "status": "proved",
   "theorems": [
    "C08_interpolation",
    "C08_same_seed_same_nonce",
    "C08_same_seed_forges_everything"
   ],
   "note": ""
  },
  {
   "property": "C09",
   "status": "proved",
   "theorems": [
    "C09_issue_outcomes",
    "C09_issue_never_panics"
   ],
   "note": ""
  },
  {
   "property": "C10",
   "status": "proved",
   "theorems": [
    "C10_honest_issuance_accepted"
   ],
   "note": ""
  },
  {
   "property": "C11",
   "status": "proved",
   "theorems": [
    "C11_issuance_sound",
    "C11_acceptance",
    "C11_rewinding"
   ],
   "note": ""
  },
  {
   "property": "C12",
   "status": "proved",
   "theorems": [
    "C12_attributes_ignored_refuted",
    "C12_invalid_credential_stored_refuted"
   ],
   "note": ""
  },
  {
   "property": "C13",
   "status": "proved",
   "theorems": [
    "C13_other_number_stored_refuted"
   ],
   "note": ""
  },
  {
   "property": "C14",
   "status": "proved",
   "theorems": [
    "C14_other_x0_accepted_refuted",
    "C14_users_linkable_refuted"
   ],
   "note": ""
  },
  {
   "property": "C15",
   "status": "proved",
   "theorems": [
    "C15_history",
    "C15_failure_changes_nothing",
    "C15_signal_phone_number_kept"
   ],
   "note": ""
  },
  {
   "property": "C16",
   "status": "proved",
   "theorems": [
    "C16_presentation_accepted"
   ],
   "note": ""
  },
  {
   "property": "C17",
   "status": "proved",
   "theorems": [
    "C17_invalid_credential_rejected"
   ],
   "note": ""
  },
  {
   "property": "C18",
   "status": "proved",
   "theorems": [
    "C18_presentation_sound",
    "C18_acceptance",
    "C18_rewinding"
   ],
   "note": ""
  },
  {
   "property": "C19",
   "status": "proved",
   "theorems": [
    "C19_forged_presentation_accepted_refuted"
   ],
   "note": ""
  },
  {
   "property": "C20",
   "status": "proved",
   "theorems": [
    "C20_membership_without_credential_refuted"
   ],
   "note": ""
  },
  {
   "property": "C21",
   "status": "proved",
   "theorems": [
    "C21_membership_sound",
    "C21_acceptance",
    "C21_rewinding"
   ],
   "note": ""
  },
  {
   "property": "C22",
   "status": "proved",
   "theorems": [
    "C22_wrong_entry_rejected",
    "C22_other_number_rejected"
   ],
   "note": ""
  },
  {
   "property": "C23",
   "status": "proved",
   "theorems": [
    "C23_unlinkable",
    "C23_show_is_show_with",
    "C23_two_credentials"
   ],
   "note": ""
  },
  {
   "property": "C24",
   "status": "proved",
   "theorems": [
    "C24_same_seed_same_values",
    "C24_signal_same_seed_same_values"
   ],
   "note": ""
  },
  {
   "property": "C25",
   "status": "proved",
   "theorems": [
    "C25_decoding_accepts_unverified_refuted",
    "C25_unverified_membership_refuted"
   ],
   "note": ""
  },
  {
   "property": "C26",
   "status": "proved",
   "theorems": [
    "C26_bytes_injective",
    "C26_strings_injective"
   ],
   "note": ""
  },
  {
   "property": "C27",
   "status": "proved",
   "theorems": [
    "C27_outcomes",
    "C27_never_panics_refuted"
   ],
   "note": "The no-panic promise is false; the exact outcome is proved for every length."
  },
  {
   "property": "C28",
   "status": "proved",
   "theorems": [
    "C28_round_trip",
    "C28_27_digits_refuted",
    "C28_empty_refuted",
    "C28_panics_exactly",
    "C28_decoded_panics_refuted"
   ],
   "note": "Holds for 1..26 digits; false for 0 and 27 digits and for decoded numbers, each refuted."
  },
  {
   "property": "C29",
   "status": "proved",
   "theorems": [
    "C29_open_exactly",
    "C29_create_opens",
    "C29_one_number"
   ],
   "note": ""
  },
  {
   "property": "C30",
   "status": "proved",
   "theorems": [
    "C30_opens_exactly",
    "C30_rejects_otherwise",
    "C30_hiding",
    "C30_binding"
   ],
   "note": ""
  },
  {
   "property": "C31",
   "status": "proved",
   "theorems": [
    "C31_decrypts",
    "C31_generated_key_decrypts",
    "C31_homomorphic",
    "C31_wrong_key"
   ],
   "note": ""
  },
  {
   "property": "C32",
   "status": "proved",
   "theorems": [
    "C32_system_parameters",
    "C32_tag",
    "C32_public_key",
    "C32_secret_key",
    "C32_keypair",
    "C32_elgamal_keypair",
    "C32_credential",
    "C32_request",
    "C32_issuance",
    "C32_presentation",
    "C32_signal_presentation",
    "C32_issuer",
    "C32_signal_user",
    "C32_roster"
   ],
   "note": ""
  },
  {
   "property": "C33",
   "status": "proved",
   "theorems": [
    "C33_system_parameters",
    "C33_tag",
    "C33_public_key",
    "C33_secret_key",
    "C33_keypair",
    "C33_commitment",
    "C33_elgamal",
    "C33_credential",
    "C33_request",
    "C33_issuance",
    "C33_presentation",
    "C33_signal_presentation",
    "C33_verified",
    "C33_issuer",
    "C33_user",
    "C33_phone_number",
    "C33_roster",
    "C33_signal_user"
   ],
   "note": ""
  },
  {
   "property": "C34",
   "status": "proved",
   "theorems": [
    "C34_canonical",
    "C34_trailing_refuted",
    "C34_phone_number_refuted",
    "C34_roster_refuted"
   ],
   "note": ""
  },
  {
   "property": "C35",
   "status": "proved",
   "theorems": [
    "C35_never_panic",
    "C35_panic_refuted",
    "C35_panics_somewhere_refuted"
   ],
   "note": ""
  },
  {
   "property": "C36",
   "status": "proved",
   "theorems": [
    "C36_decoded_never_panics",
    "C36_created_never_panics",
    "C36_verify_panics_exactly"
   ],
   "note": ""
  },
  {
   "property": "C37",
   "status": "proved",
   "theorems": [
    "C37_decoded_never_panics",
    "C37_obtained_never_panics",
    "C37_show_outcomes",
    "C37_signal_show_outcomes"
   ],
   "note": ""
  },
  {
   "property": "C38",
   "status": "proved",
   "theorems": [
    "C38_issuance_revealed_hash",
    "C38_attributes_blinded_hash",
    "C38_issuance_blinded_hash",
    "C38_valid_credential_hash",
    "C38_committed_values_equal_hash",
    "C38_transcripts_bind",
    "C38_one_challenge_one_statement"
   ],
   "note": ""
  },
  {
   "property": "C39",
   "status": "proved",
   "theorems": [
    "C39_issuance_revealed_complete",
    "C39_attributes_blinded_complete",
    "C39_issuance_blinded_complete",
    "C39_valid_credential_complete",
    "C39_committed_values_equal_complete"
   ],
   "note": ""
  },
  {
   "property": "C40",
   "status": "proved",
   "theorems": [
    "C40_issuance_revealed_sound",
    "C40_attributes_blinded_sound",
    "C40_issuance_blinded_sound",
    "C40_valid_credential_sound",
    "C40_committed_values_equal_sound"
   ],
   "note": ""
  },
  {
   "property": "C41",
   "status": "proved",
   "theorems": [
    "C41_issuance_revealed_indistinguishable",
    "C41_attributes_blinded_indistinguishable",
    "C41_issuance_blinded_indistinguishable",
    "C41_valid_credential_indistinguishable",
    "C41_committed_values_equal_indistinguishable",
    "C41_issuance_revealed_simulator",
    "C41_attributes_blinded_simulator",
    "C41_issuance_blinded_simulator",
    "C41_valid_credential_simulator",
    "C41_committed_values_equal_simulator"
   ],
   "note": ""
  },
  {
   "property": "C42",
   "status": "proved",
   "theorems": [
    "C42_attributes_blinded_malleable",
    "C42_refuted",
    "C42_issuance_revealed_not_malleable",
    "C42_issuance_blinded_not_malleable",
    "C42_valid_credential_not_malleable",
    "C42_committed_values_equal_not_malleable"
   ],
   "note": "The claim is false of attributes_blinded (C42_refuted, C42_attributes_blinded_malleable); the other four systems satisfy it up to an explicit discrete-logarithm relation between the bases or a collision of the challenge function."
  },
  {
   "property": "C43",
   "status": "proved",
   "theorems": [
    "C43_untied",
    "C43_refuted",
    "C43_tied_when_equal"
   ],
   "note": "The claim is false of the code: refuted, with the weaker guarantee that does hold when both inputs are the same point."
  },
  {
   "property": "C44",
   "status": "proved",
   "theorems": [
    "C44_first_usable_block",
    "C44_h_is_not_g",
    "C44_identity_excluded_refuted",
    "C44_identity_parameters_do_not_bind"
   ],
   "note": "h is never g; exclusion of the identity is refuted for every group."
  },
  {
   "property": "C45",
   "status": "proved",
   "theorems": [
    "C45_mismatched_key_decodes_refuted",
    "C45_mismatched_key_useless"
   ],
   "note": ""
  },
  {
   "property": "C46",
   "status": "proved",
   "theorems": [
    "C46_multi_attribute_decodes_and_issues",
    "C46_multi_attribute_rejected_refuted"
   ],
   "note": ""
  },
  {
   "property": "C47",
   "status": "proved",
   "theorems": [
    "C47_buffer_valid_refuted",
    "C47_buffer_was_written",
    "C47_caller_memory_untouched"
   ],
   "note": "The claim is false of the code: refuted for every call that returns a non-zero length."
  },
  {
   "property": "C48",
   "status": "proved",
   "theorems": [
    "C48_null_on_failure_refuted",
    "C48_positive_length_is_success",
    "C48_open_result"
   ],
   "note": "False of the code for the pointer (refuted for all failing calls); the length part holds."
  },
  {
   "property": "C49",
   "status": "proved",
   "theorems": [
    "C49_unwinds_exactly"
   ],
   "note": "The no-unwinding promise is false; the exact condition is proved for every entry point."
  },
  {
   "property": "C50",
   "status": "proved",
   "theorems": [
    "C50_missing_argument_no_result",
    "C50_all_missing_returns",
    "C50_defined",
    "C50_missing_argument_returns_refuted"
   ],
   "note": "No result with a missing argument, and memory safety, are proved; that the call always returns is refuted."
  },
  {
   "property": "C51",
   "status": "proved",
   "theorems": [
    "C51_returned_value_refused_refuted",
    "C51_calls_return_zero_refuted",
    "C51_one_returned_argument_refuted",
    "C51_reads_strings",
    "C51_system_parameters_unreadable_refuted",
    "C51_short_string_traps_refuted"
   ],
   "note": "False of the code: the returned values are refused. The values JSON cannot express (undefined, functions) are not modelled."
  },
  {
   "property": "C52",
   "status": "proved",
   "theorems": [
    "C52_round_trip",
    "C52_layout",
    "C52_accepts",
    "C52_truncated",
    "C52_panics_refuted",
    "C52_no_panic",
    "C52_proofs"
   ],
   "note": "Round trip proved for all 23 types with a byte codec and for the derived attribute and issuance proof codecs; absence of panics refuted for the types whose from_bytes indexes without a check."
  },
  {
   "property": "C53",
   "status": "proved",
   "theorems": [
    "C53_with_bytes_never_nil_refuted",
    "C53_verify_never_nil_refuted",
    "C53_verify_rejected_refuted",
    "C53_verify_accepted",
    "C53_verify_uninformative_refuted",
    "C53_get_parameters_refuted",
    "C53_get_parameters_wrong_refuted",
    "C53_issuance_unusable_refuted",
    "C53_user_never_nil_refuted",
    "C53_empty_user_shows_refuted",
    "C53_nil_iff_bad_seed",
    "C53_issuer_bad_parameters_refuted",
    "C53_open_correct"
   ],
   "note": "False of the code except for opening a roster entry. Reading the freed result buffer is modelled by arbitrary bytes; Swift memory management is not modelled."
  },
  {
   "property": "C54",
   "status": "proved",
   "theorems": [
    "C54_secret_key_drop",
    "C54_nonces_drop",
    "C54_single_scalar_drop",
    "C54_secret_key_new",
    "C54_nonces_new",
    "C54_single_scalar_new",
    "C54_secret_key_from_bytes",
    "C54_rejected_key_left_in_memory_refuted",
    "C54_elgamal_keypair_from_bytes",
    "C54_growth"
   ],
   "note": "Each destructor is exact, construction and decoding refine the functional model, and dropping leaves nothing; the refuting theorem shows that SecretKey::from_bytes leaves already decoded scalars in freed memory when a later one is not canonical. Copies made by moves and byte arrays are not modelled."
  },
  {
   "property": "C55",
   "status": "proved",
   "theorems": [
    "C55_history_independent",
    "C55_replay_accepted"
   ],
   "note": ""
  },
  {
   "property": "C56",
   "status": "proved",
   "theorems": [
    "C56_same_proof_same_presentation"
   ],
   "note": ""
  },
  {
   "property": "C57",
   "status": "proved",
   "theorems": [
    "C57_order_prime",
    "C57_inverses"
   ],
   "note": ""
  },
  {
   "property": "C58",
   "status": "proved",
   "theorems": [
    "C58_non_digits_confused",
    "C58_non_digits_rejected_refuted"
   ],
   "note": "The claim is false of the code; the confused strings are characterised."
  },
  {
   "property": "C59",
   "status": "proved",
   "theorems": [
    "C59_encoders_agree_refuted",
    "C59_issued_number_to_string_empty"
   ],
   "note": "The claim is false of the code for every non-empty decimal string."
  },
  {
   "property": "C60",
   "status": "proved",
   "theorems": [
    "C60_result_lengths",
    "C60_documented_roster_length_refuted"
   ],
   "note": "Fixed lengths proved; the documented length of one result is refuted."
  },
  {
   "property": "C61",
   "status": "proved",
   "theorems": [
    "C61_reads_exactly_len",
    "C61_reads_exactly_len_refuted"
   ],
   "note": "Proved for 64-bit addresses, refuted for 32-bit ones."
  },
  {
   "property": "C62",
   "status": "proved",
   "theorems": [
    "C62_obtained_user_decodes_iff_one_key",
    "C62_obtained_user_decodes_refuted"
   ],
   "note": "False of the code: exact condition proved, and refuted for every appended key."
  },
  {
   "property": "C63",
   "status": "proved",
   "theorems": [
    "C63_blinding",
    "C63_generators_differ"
   ],
   "note": "The generator itself (merlin TranscriptRng) is a parameter: that different inputs give unrelated streams is not a theorem."
  },
  {
   "property": "C64",
   "status": "proved",
   "theorems": [
    "C64_create_expands",
    "C64_verify_expands",
    "C64_relation_declared",
    "C64_complete",
    "C64_sound",
    "C64_unused_secret_free",
    "C64_unused_secret_refuted",
    "C64_well_formed"
   ],
   "note": "create_nipk! belongs to the external zkp crate; its expansion scheme is written down in ModelMacros.v and proved equal to the five modules of proofs.rs."
  },
  {
   "property": "C65",
   "status": "proved",
   "theorems": [
    "C65_add",
    "C65_drop",
    "C65_constants",
    "C65_no_growth",
    "C65_double_drop_refuted",
    "C65_call_returns",
    "C65_call_outcomes",
    "C65_panic_leaks_refuted",
    "C65_leak_total",
    "C65_leak_unbounded_refuted"
   ],
   "note": "The leak on panic is refuted by universal theorems (C65_panic_leaks_refuted, C65_leak_unbounded_refuted); C65_double_drop_refuted shows the condition on dropping is needed. Linear memory is in C75."
  },
  {
   "property": "C66",
   "status": "proved",
   "theorems": [
    "C66_number_hidden",
    "C66_show_is_show_with",
    "C66_two_members",
    "C66_entry_shown",
    "C66_anonymous_in_roster_refuted"
   ],
   "note": "Hiding of the number proved as existence and uniqueness of the matching opening and scalars; anonymity among roster entries refuted for all inputs."
  },
  {
   "property": "C67",
   "status": "proved",
   "theorems": [
    "C67_presentation_one_issuer",
    "C67_identity_nonce_refuted",
    "C67_identity_forgery_refuted",
    "C67_issuance_one_issuer",
    "C67_roster_check_any_issuer",
    "C67_roster_one_parameters"
   ],
   "note": "Proved up to a named collision; with the identity as nonce refuted for all pairs of issuers that differ in x0."
  },
  {
   "property": "C68",
   "status": "proved",
   "theorems": [
    "C68_parameters_checked_refuted",
    "C68_identity_h_shows_number_refuted",
    "C68_identity_g_entry_refuted",
    "C68_trapdoor_refuted"
   ],
   "note": "Refuted; the consequences are proved for all inputs."
  },
  {
   "property": "C69",
   "status": "proved",
   "theorems": [
    "C69_unforgeable",
    "C69_oracle_is_issue",
    "C69_identity_h_refuted",
    "C69_guess_wins"
   ],
   "note": "Counting statement over all keys and coins, against generic (black-box group) adversaries; the scope is in DESIGN.md section 3. Refuted for h the identity."
  },
  {
   "property": "C70",
   "status": "proved",
   "theorems": [
    "C70_nearly_uniform",
    "C70_key_of_stream",
    "C70_unforgeable_bytes"
   ],
   "note": "Counts strings of 64-byte blocks; that the generator's bytes are uniform is left to the generator."
  },
  {
   "property": "C71",
   "status": "proved",
   "theorems": [
    "C71_mac_tests",
    "C71_presentation_tests",
    "C71_parameters_tests",
    "C71_hunt_and_peck_test",
    "C71_commitment_tests",
    "C71_number_tests",
    "C71_signal_test",
    "C71_full_protocol"
   ],
   "note": "Stated for the tests as programs; the constants are parameters."
  },
  {
   "property": "C72",
   "status": "proved",
   "theorems": [
    "C72_tests_pass_refuted",
    "C72_tests_read_freed_memory",
    "C72_obtain_finish_test"
   ],
   "note": "Refuted for all constants; the one test that can pass is characterised exactly."
  },
  {
   "property": "C73",
   "status": "proved",
   "theorems": [
    "C73_buffer",
    "C73_swift",
    "C73_freed_refuted",
    "C73_maths"
   ],
   "note": "What malloc's block holds at first is arbitrary. Freeing is refuted for all calls."
  },
  {
   "property": "C74",
   "status": "proved",
   "theorems": [
    "C74_unforgeable",
    "C74_oracle_is_issue",
    "C74_hash_of_points",
    "C74_same_scalars_refuted"
   ],
   "note": "Generic group, the hash of a proof of issuance a random function; one attribute. Presentations are in C77."
  },
  {
   "property": "C75",
   "status": "proved",
   "theorems": [
    "C75_pass",
    "C75_arrays_arrive",
    "C75_call",
    "C75_arrays_freed",
    "C75_missing_array_leaks_refuted",
    "C75_string_number_refuted",
    "C75_serialize",
    "C75_parse"
   ],
   "note": "The allocator and the compiled code are parameters with the stated laws. Freeing when the second array is missing, and one attribute per phone number, are refuted for all inputs."
  },
  {
   "property": "C76",
   "status": "proved",
   "theorems": [
    "C76_statement",
    "C76_any_number_refuted",
    "C76_none_from_bytes"
   ],
   "note": "Refuted for all credentials and numbers; what verify checks, and that presentations read from bytes have no revealed attribute, are proved."
  },
  {
   "property": "C77",
   "status": "proved",
   "theorems": [
    "C77_sound",
    "C77_checks",
    "C77_hash_of_points",
    "C77_parameters",
    "C77_known_h_refuted"
   ],
   "note": "Generic group, the hash a random function of the points hashed, one attribute, none revealed. The adversary does not see the proofs of issuance or presentations of others; in C81 it does. That the logarithm of h is unknown is needed: refuted otherwise."
  },
  {
   "property": "C78",
   "status": "proved",
   "theorems": [
    "C78_keys",
    "C78_commitments",
    "C78_messages",
    "C78_records",
    "C78_point_error_refuted"
   ],
   "note": "One table per format; the claim that an undecodable point is always reported as PointDecompressionError is refuted."
  },
  {
   "property": "C79",
   "status": "proved",
   "theorems": [
    "C79_texts_differ",
    "C79_expected_length_refuted",
    "C79_message_bytes_refuted",
    "C79_multiple_of_32",
    "C79_multiple_of_32_refuted",
    "C79_phone_length",
    "C79_phone_length_refuted",
    "C79_high_bit",
    "C79_high_bit_refuted",
    "C79_roster_text_refuted",
    "C79_conversion",
    "C79_conversion_refuted",
    "C79_protocol_texts"
   ],
   "note": "The texts as promises about the input; where a text says something untrue, a theorem ending in _refuted."
  },
  {
   "property": "C80",
   "status": "proved",
   "theorems": [
    "C80_products",
    "C80_commitments",
    "C80_rerandomization",
    "C80_indices",
    "C80_nonces",
    "C80_conversions",
    "C80_lengths",
    "C80_messages"
   ],
   "note": "Operators and conversions of nonces.rs, pedersen.rs, amacs.rs, elgamal.rs and phone_number.rs."
  },
  {
   "property": "C81",
   "status": "proved",
   "theorems": [
    "C81_sound",
    "C81_overheard_is_show",
    "C81_nonce_uniform",
    "C81_transcripts_apart",
    "C81_replay_refuted",
    "C81_known_scalar_refuted"
   ],
   "note": "Generic group, the hash one random function of the points hashed (the transcripts of the three proofs are never the same), one attribute, none revealed, honest users show entries for their own number. The two refutations are about copies and about a leaked hiding scalar."
  },
  {
   "property": "C82",
   "status": "proved",
   "theorems": [
    "C82_same_view",
    "C82_same_chance",
    "C82_join_is_create",
    "C82_marked_refuted"
   ],
   "note": "Perfect: no bound and no assumption on the hash function. Scalars are counted, not the bytes they are made from (C70). Marking a user by the nonce is refuted; marking by another x0 is C14."
  },
  {
   "property": "C83",
   "status": "proved",
   "theorems": [
    "C83_forking",
    "C83_presentation_taken",
    "C83_presentation",
    "C83_membership_taken",
    "C83_membership",
    "C83_issuance"
   ],
   "note": "Random-oracle model, the prover's coins fixed; pairs of runs are counted. The extractors are those of C11, C18 and C21."
  },
  {
   "property": "C84",
   "status": "proved",
   "theorems": [
    "C84_two_forks",
    "C84_accepted",
    "C84_owner"
   ],
   "note": "Random-oracle model, the prover's coins fixed; triples of runs are counted. That the MAC cannot be broken is C69, C77 and C81 (generic group)."
  },
  {
   "property": "C85",
   "status": "proved",
   "theorems": [
    "C85_h_uniform",
    "C85_unforgeable",
    "C85_no_impostor",
    "C85_identity_refuted"
   ],
   "note": "Generic group and random hash as in C74 and C81. Strings of blocks are counted; that the generators' bytes are uniform is left to them. Refuted for h the identity (the search does not exclude it)."
  },
  {
   "property": "C86",
   "status": "proved",
   "theorems": [
    "C86_forking",
    "C86_two_forks",
    "C86_roster",
    "C86_owner"
   ],
   "note": "Random-oracle model. That tags cannot be forged and logarithms not be found is C69, C74 and C81 (generic group). The identity as nonce is excluded (C19)."
  },
  {
   "property": "C87",
   "status": "proved",
   "theorems": [
    "C87_c_calls",
    "C87_c_otherwise",
    "C87_js_calls",
    "C87_js_otherwise",
    "C87_swift_calls",
    "C87_swift_issuer_with_seed",
    "C87_header_lengths",
    "C87_swift_made_issuer"
   ],
   "note": "Opening of commitments from C is C48_open_result; panics are C49. Swift results are stated for any content of freed memory (C52)."
  },
  {
   "property": "C88",
   "status": "proved",
   "theorems": [
    "C88_reduction",
    "C88_counts",
    "C88_phone_numbers",
    "C88_generic",
    "C88_generic_reached",
    "C88_same_nonce",
    "C88_in_the_clear",
    "C88_altered_refuted"
   ],
   "note": "Chosen plaintext; keys and nonces uniform among the scalars. That the Diffie-Hellman secret is hidden is not assumed or proved but for generic eavesdroppers. C88_altered_refuted: no security against chosen ciphertexts."
  },
  {
   "property": "C89",
   "status": "proved",
   "theorems": [
    "C89_history",
    "C89_unrefused",
    "C89_randomness",
    "C89_member"
   ],
   "note": "Participants follow the protocol: users keep what they are given and show with the library; dishonest ones are the subject of C17-C22, C61-C87. All issuers share the system parameters. Keys given to users must be writable (C33)."
  },
  {
   "property": "C90",
   "status": "proved",
   "theorems": [
    "C90_bytes",
    "C90_unrefused",
    "C90_c_computes",
    "C90_c_history"
   ],
   "note": "The buffers that the C functions return have been freed (C47): the bytes kept are those last in them. JavaScript is no instance, since its results cannot be passed back (C51). A panic, a search that does not end and an empty buffer all count as giving nothing (C49, C50 tell them apart). Strings of 2^32 bytes and more are left out. A verified presentation passes the membership check of any issuer with the same parameters."
  },
  {
   "property": "C91",
   "status": "proved",
   "theorems": [
    "C91_counts",
    "C91_shares",
    "C91_watching",
    "C91_eavesdropping",
    "C91_listening",
    "C91_uniform_refuted",
    "C91_key_of_stream"
   ],
   "note": "The random bytes are those which fill_bytes gives; that they are uniform is the assumption under which counts are likelihoods. C91_watching is up to the factor ((s+1)/s)^n, s > 2^256; C91_uniform_refuted shows why it is needed."
  },
  {
   "property": "C92",
   "status": "proved",
   "theorems": [
    "C92_computes",
    "C92_key_generation",
    "C92_proof_creation",
    "C92_mac",
    "C92_mac_verify",
    "C92_issue",
    "C92_show",
    "C92_verify",
    "C92_obtain",
    "C92_number_bytes",
    "C92_number_length_refuted",
    "C92_text_refuted",
    "C92_to_string_refuted",
    "C92_decode_keys",
    "C92_decode_user",
    "C92_decode_user_refuted"
   ],
   "note": "Relative to the events of ModelTiming.v: that nothing else is seen, and what the external crates show, is assumed (DESIGN.md). Refuted for the number of digits (C92_number_length_refuted), numbers as text (C92_text_refuted, C92_to_string_refuted) and reading a user's state (C92_decode_user_refuted)."
  },
  {
   "property": "C93",
   "status": "proved",
   "theorems": [
    "C93_issue_errors",
    "C93_key_lengths_refuted",
    "C93_number_error_refuted",
    "C93_two_forms_refuted",
    "C93_padding_refuted",
    "C93_order_bits_refuted",
    "C93_from_array_panics",
    "C93_js_false_refuted",
    "C93_issuer_length_refuted"
   ],
   "note": "Refutations of documented claims carry _refuted; the two true ones are C93_issue_errors and C93_from_array_panics. Claims of other comments are in C27, C48, C51, C60, C79 and C80."
  },
  {
   "property": "C94",
   "status": "proved",
   "theorems": [
    "C94_decode",
    "C94_wrong_length",
    "C94_decode_keys",
    "C94_issuer_refuted",
    "C94_numbers",
    "C94_proofs",
    "C94_issue",
    "C94_user",
    "C94_verify"
   ],
   "note": "Counts the events of ModelTiming.v (SpecWork.v says how). C94_issuer_refuted: reading an issuer has no bound independent of its length. Not counted: encoding, reading presentations and issuances, the layers above."
  },
  {
   "property": "C95",
   "status": "proved",
   "theorems": [
    "C95_undisturbed",
    "C95_reach",
    "C95_recovers",
    "C95_read_only",
    "C95_lost_refuted"
   ],
   "note": "C95_undisturbed has the exceptions of C89 and the hypothesis that no user takes what no issuer made; C95_lost_refuted shows that a carrier can break that hypothesis. C95_reach and C95_recovers say how far the damage goes."
  },
  {
   "property": "C96",
   "status": "proved",
   "theorems": [
    "C96_debug_shows_refuted",
    "C96_debug_tells",
    "C96_scalar_legible",
    "C96_eq",
    "C96_eq_bytes",
    "C96_eq_user_refuted",
    "C96_eq_number_refuted",
    "C96_default_refuted"
   ],
   "note": "C96_eq and C96_eq_bytes are the comparisons. The refutations are universal: C96_debug_shows_refuted and C96_default_refuted hold of all values; C96_debug_tells and C96_scalar_legible say how much the texts show."
  },
  {
   "property": "C97",
   "status": "proved",
   "theorems": [
    "C97_replay_refuted",
    "C97_third_party",
    "C97_made_up",
    "C97_issuer_can"
   ],
   "note": "C97_replay_refuted holds of all histories. C97_third_party, C97_made_up and C97_issuer_can say that nobody else is convinced; the last two are about presentations in the form that the code reads (one blinded attribute, canonical responses)."
  },
  {
   "property": "C98",
   "status": "proved",
   "theorems": [
    "C98_create_commit_refuted",
    "C98_create_show_refuted",
    "C98_commit_commit_refuted",
    "C98_show_show_refuted",
    "C98_commit_show_refuted",
    "C98_create_create_refuted",
    "C98_bytes_refuted"
   ],
   "note": "Universal refutations, one for each pair of calls; C98_bytes_refuted is about the results of the C, JavaScript and Swift functions through gives of C87."
  },
  {
   "property": "C99",
   "status": "proved",
   "theorems": [
    "C99_parameters_refuted",
    "C99_show_refuted",
    "C99_issued_refuted",
    "C99_zeros",
    "C99_identity_key"
   ],
   "note": "C99_show_refuted and C99_issued_refuted are universal; C99_identity_key is the case left. Objects are those that the initialisers and functions make; data is a variable that code in the same module could set."
  },
  {
   "property": "C100",
   "status": "proved",
   "theorems": [
    "C100_create",
    "C100_commit",
    "C100_issue",
    "C100_show",
    "C100_parameters",
    "C100_thread",
    "C100_one_generator"
   ],
   "note": "Bytes, not distributions: with a uniform stream disjoint stretches are independent, which is not formalised."
  },
  {
   "property": "C101",
   "status": "proved",
   "theorems": [
    "C101_calls_refuted",
    "C101_objects_refuted",
    "C101_texts"
   ],
   "note": "C101_calls_refuted and C101_objects_refuted are universal. That the encoding of the basepoint begins with e2 f2 is a hypothesis, as in C51; toy_js has it."
  },
  {
   "property": "C102",
   "status": "proved",
   "theorems": [
    "C102_dealt",
    "C102_apart",
    "C102_any",
    "C102_history"
   ],
   "note": "C102_apart is about the stretches that C102_dealt deals out.  C102_history takes the hypotheses of C89_history."
  },
  {
   "property": "C103",
   "status": "proved",
   "theorems": [
    "C103_answers",
    "C103_book",
    "C103_crash",
    "C103_strangers",
    "C103_reload_refuted"
   ],
   "note": "C103_reload_refuted: a reload may lose a credential that is all zeros in bytes.  Keys given to users can be written down (sound_open), as in C89."
  },
  {
   "property": "C104",
   "status": "proved",
   "theorems": [
    "C104_replies",
    "C104_named",
    "C104_honest",
    "C104_who_refuted",
    "C104_bytes",
    "C104_commitments",
    "C104_credentials"
   ],
   "note": "C104_who_refuted refutes for an issuer with a key for each user that it does not learn who presents.  Only decided up to an identity nonce or a challenge collision between the transcripts named."
  },
  {
   "property": "C105",
   "status": "proved",
   "theorems": [
    "C105_table",
    "C105_crashes",
    "C105_show",
    "C105_user",
    "C105_obtain"
   ],
   "note": "The strings are those of values with one attribute and reduced scalars, as the calls make them.  How often a scalar is the encoding of a point is not counted."
  },
  {
   "property": "C106",
   "status": "proved",
   "theorems": [
    "C106_computes",
    "C106_makers",
    "C106_verify",
    "C106_open",
    "C106_obtain",
    "C106_show",
    "C106_show_refuted",
    "C106_show_keyless",
    "C106_text",
    "C106_text_refuted"
   ],
   "note": "Allocation, ChaCha20, bincode and serde_json show what ModelTimingFfi says of them; system_parameters_create is public and only shown to compute the same.  Reading JSON and the Swift layer are not timed."
  },
  {
   "property": "C107",
   "status": "proved",
   "theorems": [
    "C107_decides",
    "C107_pushed",
    "C107_bytes",
    "C107_member",
    "C107_only_own",
    "C107_level_refuted",
    "C107_without_credential_refuted",
    "C107_any_members",
    "C107_removed_refuted",
    "C107_malleable_refuted"
   ],
   "note": "The lists are those of the protocol test; the library leaves the roster to its user.  Five parts are refutations, proved for all inputs."
  },
  {
   "property": "C108",
   "status": "proved",
   "theorems": [
    "C108_presented",
    "C108_fresh_nonces_refuted",
    "C108_zero_nonces_refuted",
    "C108_repaired",
    "C108_forged_refuted",
    "C108_proves",
    "C108_enough"
   ],
   "note": "Issuers with several attributes are not made by Issuer::create but by Issuer::new and from_bytes; that users cannot obtain their credentials is C46."
  },
  {
   "property": "C109",
   "status": "proved",
   "theorems": [
    "C109_issuance_revealed",
    "C109_attributes_blinded",
    "C109_issuance_blinded",
    "C109_valid_credential",
    "C109_committed_values_equal",
    "C109_invalid_credential",
    "C109_several_attributes",
    "C109_wrong_entry",
    "C109_issuance"
   ],
   "note": "The randomness of the commitments is fixed and only the challenges vary; the provers are those of the code, any other prover is the subject of C83."
  },
  {
   "property": "C110",
   "status": "proved",
   "theorems": [
    "C110_unforgeable",
    "C110_no_impostor",
    "C110_watching",
    "C110_listening",
    "C110_exceptions",
    "C110_reached"
   ],
   "note": "Corollaries of C85, C91 and C109 with their scope (generic group, random hash); C110_reached is about C69."
  },
  {
   "property": "C111",
   "status": "proved",
   "theorems": [
    "C111_shown",
    "C111_text",
    "C111_tells",
    "C111_no_memory",
    "C111_errors",
    "C111_names",
    "C111_conversion_refuted"
   ],
   "note": "The text of CompressedRistretto is that of curve25519-dalek. That the conversions keep the error is refuted."
  },
  {
   "property": "C112",
   "status": "proved",
   "theorems": [
    "C112_issue_refuted",
    "C112_nonces_refuted",
    "C112_show_refuted",
    "C112_entry_refuted",
    "C112_bytes_refuted"
   ],
   "note": "Universal refutations with the computation of the thief written out in SpecLeak; C112_bytes_refuted is about the results of the C, JavaScript and Swift functions through gives of C87."
  },
  {
   "property": "C113",
   "status": "proved",
   "theorems": [
    "C113_same_results",
    "C113_prover_leaves",
    "C113_verifier_leaves",
    "C113_meet",
    "C113_sequence",
    "C113_binds",
    "C113_place"
   ],
   "note": "Nothing in /repo uses a transcript for two proofs; the functions allow it. Taking a challenge is recorded as one more entry of the transcript."
  },
  {
   "property": "C114",
   "status": "proved",
   "theorems": [
    "C114_chosen_refuted",
    "C114_opens_refuted",
    "C114_opens_only",
    "C114_presents_refuted",
    "C114_bytes_refuted"
   ],
   "note": "Refuted for every t but 1; C114_opens_only is the converse. The credential for the own number is still needed (C18), and the commitment still hides the number (C30)."
  },
  {
   "property": "C115",
   "status": "proved",
   "theorems": [
    "C115_calls",
    "C115_decoders",
    "C115_outcomes",
    "C115_js",
    "C115_c",
    "C115_c_whole",
    "C115_js_whole",
    "C115_builds",
    "C115_differ_refuted",
    "C115_swift"
   ],
   "note": "C115_differ_refuted is where a debug and a release build do differ."
  },
  {
   "property": "C116",
   "status": "proved",
   "theorems": [
    "C116_decrypts",
    "C116_request",
    "C116_extracted",
    "C116_verifies",
    "C116_as_meant_refuted",
    "C116_missing_term",
    "C116_blind_refuted",
    "C116_known",
    "C116_one_point",
    "C116_honest_refuted"
   ],
   "note": "The property as titled is refuted for all honest witnesses (C116_as_meant_refuted, C116_blind_refuted, C116_honest_refuted); the other theorems say exactly what is obtained."
  },
  {
   "property": "C117",
   "status": "proved",
   "theorems": [
    "C117_strings",
    "C117_found",
    "C117_server",
    "C117_presented",
    "C117_stripped",
    "C117_same_number",
    "C117_identity"
   ],
   "note": ""
  },
  {
   "property": "C118",
   "status": "proved",
   "theorems": [
    "C118_in_clear",
    "C118_tells",
    "C118_stolen_refuted",
    "C118_entry_safe"
   ],
   "note": ""
  }
 ]
}