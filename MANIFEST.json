{
 "claims": [
  {
   "property": "C01",
   "status": "proved",
   "theorems": [
    "C01_sha256_conforms",
    "C01_limits",
    "C01_spec_padding_least"
   ],
   "note": ""
  },
  {
   "property": "C02",
   "status": "proved",
   "theorems": [
    "C02_chunking_irrelevant",
    "C02_empty_update_noop"
   ],
   "note": ""
  },
  {
   "property": "C03",
   "status": "proved",
   "theorems": [
    "C03_total_and_32_bytes",
    "C03_digest_is_32_bytes"
   ],
   "note": ""
  },
  {
   "property": "C04",
   "status": "proved",
   "theorems": [
    "C04_length_limit_exact",
    "C04_with_length_is_sha256",
    "C04_rfc_limit_refuted",
    "C04_wrapped_length_differs"
   ],
   "note": "Exact outcome for every length and target; the RFC limit of 2^61 bytes is refuted for 32-bit targets (C04_rfc_limit_refuted)."
  },
  {
   "property": "C05",
   "status": "proved",
   "theorems": [
    "C05_history_exact",
    "C05_second_digest",
    "C05_idempotent_refuted"
   ],
   "note": "Exact machine for every history; idempotence is refuted by witness."
  },
  {
   "property": "C06",
   "status": "proved",
   "theorems": [
    "C06_hmac_conforms"
   ],
   "note": ""
  },
  {
   "property": "C07",
   "status": "proved",
   "theorems": [
    "C07_chunking_irrelevant"
   ],
   "note": ""
  },
  {
   "property": "C08",
   "status": "proved",
   "theorems": [
    "C08_trailing_zeros",
    "C08_long_key",
    "C08_boundary",
    "C08_new_terminates"
   ],
   "note": ""
  },
  {
   "property": "C09",
   "status": "proved",
   "theorems": [
    "C09_history_exact",
    "C09_idempotent_refuted"
   ],
   "note": "Exact machine for every history; idempotence is refuted by witness."
  },
  {
   "property": "C10",
   "status": "proved",
   "theorems": [
    "C10_pbkdf2_conforms"
   ],
   "note": ""
  },
  {
   "property": "C11",
   "status": "proved",
   "theorems": [
    "C11_overwrites_exactly",
    "C11_empty_output"
   ],
   "note": ""
  },
  {
   "property": "C12",
   "status": "proved",
   "theorems": [
    "C12_prefix"
   ],
   "note": ""
  },
  {
   "property": "C13",
   "status": "proved",
   "theorems": [
    "C13_zero_iterations",
    "C13_zero_rejected_refuted"
   ],
   "note": "The code accepts c = 0 (refuted: rejection)."
  },
  {
   "property": "C14",
   "status": "proved",
   "theorems": [
    "C14_every_length",
    "C14_period",
    "C14_too_long_reported_refuted"
   ],
   "note": "The code does not report over-long keys (refuted by witness); exact output for every length."
  },
  {
   "property": "C15",
   "status": "proved",
   "theorems": [
    "C15_trailing_zeros",
    "C15_long_password"
   ],
   "note": ""
  },
  {
   "property": "C16",
   "status": "proved",
   "theorems": [
    "C16_salsa20_conforms"
   ],
   "note": ""
  },
  {
   "property": "C17",
   "status": "proved",
   "theorems": [
    "C17_panics_iff_short",
    "C17_first_block_only",
    "C17_all_blocks_mixed_refuted"
   ],
   "note": "Exact behaviour; the documented multi-block reading is refuted by witness."
  },
  {
   "property": "C18",
   "status": "proved",
   "theorems": [
    "C18_mixing_total",
    "C18_mixing_injective",
    "C18_mixing_surjective",
    "C18_difference_injective"
   ],
   "note": ""
  },
  {
   "property": "C19",
   "status": "proved",
   "theorems": [
    "C19_top_bits_collide",
    "C19_injective_refuted"
   ],
   "note": "Collision for every input and round count; injectivity refuted."
  },
  {
   "property": "C20",
   "status": "proved",
   "theorems": [
    "C20_scrypt_conforms"
   ],
   "note": ""
  },
  {
   "property": "C21",
   "status": "proved",
   "theorems": [
    "C21_rejects_exactly"
   ],
   "note": ""
  },
  {
   "property": "C22",
   "status": "proved",
   "theorems": [
    "C22_n_above_1_refuted",
    "C22_n_bound_refuted",
    "C22_p_bound_refuted",
    "C22_r_p_above_1_refuted"
   ],
   "note": "The bounds of the documentation and the RFC are not enforced (refuted by witnesses)."
  },
  {
   "property": "C23",
   "status": "proved",
   "theorems": [
    "C23_index_is_exact",
    "C23_needs_power_of_two"
   ],
   "note": ""
  },
  {
   "property": "C24",
   "status": "proved",
   "theorems": [
    "C24_checked_build_panics",
    "C24_unchecked_build_truncates",
    "C24_wrap_to_zero",
    "C24_lane_wraps_to_zero",
    "C24_table_too_large",
    "C24_salt_matters_refuted"
   ],
   "note": "Exact outcome of the overflow in both kinds of build; dependence on the salt refuted."
  },
  {
   "property": "C25",
   "status": "proved",
   "theorems": [
    "C25_overwrites_exactly",
    "C25_prefix"
   ],
   "note": ""
  },
  {
   "property": "C26",
   "status": "proved",
   "theorems": [
    "C26_sbox_conforms",
    "C26_inverse_permutations",
    "C26_field_inverse"
   ],
   "note": ""
  },
  {
   "property": "C27",
   "status": "proved",
   "theorems": [
    "C27_mul_conforms",
    "C27_mul_is_remainder"
   ],
   "note": ""
  },
  {
   "property": "C28",
   "status": "proved",
   "theorems": [
    "C28_key_expansion_conforms"
   ],
   "note": ""
  },
  {
   "property": "C29",
   "status": "proved",
   "theorems": [
    "C29_encrypt_conforms"
   ],
   "note": ""
  },
  {
   "property": "C30",
   "status": "proved",
   "theorems": [
    "C30_decrypt_conforms"
   ],
   "note": ""
  },
  {
   "property": "C31",
   "status": "proved",
   "theorems": [
    "C31_decrypt_encrypt",
    "C31_encrypt_decrypt",
    "C31_encrypt_injective"
   ],
   "note": ""
  },
  {
   "property": "C32",
   "status": "proved",
   "theorems": [
    "C32_init_accepts_exactly",
    "C32_failed_init_changes_nothing",
    "C32_histories"
   ],
   "note": ""
  },
  {
   "property": "C33",
   "status": "proved",
   "theorems": [
    "C33_pad_conforms",
    "C33_complete_blocks_returned"
   ],
   "note": ""
  },
  {
   "property": "C34",
   "status": "proved",
   "theorems": [
    "C34_unpad_inverts_pad",
    "C34_one_block_held_back"
   ],
   "note": ""
  },
  {
   "property": "C35",
   "status": "proved",
   "theorems": [
    "C35_accepts_exactly"
   ],
   "note": ""
  },
  {
   "property": "C36",
   "status": "proved",
   "theorems": [
    "C36_decipher_accepts_final_zero",
    "C36_only_valid_padding_refuted",
    "C36_accepted_is_valid_or_ends_in_zero",
    "C36_valid_is_accepted"
   ],
   "note": "Refuted by witness: a final byte 0 is accepted as no padding, and for every key, iv and block string ending in 0 the decipher accepts a ciphertext of it; exactly this and valid padding are accepted."
  },
  {
   "property": "C37",
   "status": "proved",
   "theorems": [
    "C37_encrypt_conforms"
   ],
   "note": ""
  },
  {
   "property": "C38",
   "status": "proved",
   "theorems": [
    "C38_round_trip"
   ],
   "note": ""
  },
  {
   "property": "C39",
   "status": "proved",
   "theorems": [
    "C39_decrypt_outcome"
   ],
   "note": ""
  },
  {
   "property": "C40",
   "status": "proved",
   "theorems": [
    "C40_trailing_bytes_ignored",
    "C40_reported_refuted"
   ],
   "note": "Refuted by witness: up to 15 trailing bytes are ignored; for every input they change no reply."
  },
  {
   "property": "C41",
   "status": "proved",
   "theorems": [
    "C41_failed_call_has_no_effect_refuted",
    "C41_failed_write_keeps_data_refuted",
    "C41_failed_write_drops_blocks",
    "C41_failed_flush_drops_pending",
    "C41_failed_decipher_write_drops_blocks"
   ],
   "note": "Refuted by witnesses: a failed write is neither without effect nor kept; exactly what is lost is proved."
  },
  {
   "property": "C42",
   "status": "proved",
   "theorems": [
    "C42_cipher_histories",
    "C42_decipher_histories"
   ],
   "note": ""
  },
  {
   "property": "C43",
   "status": "proved",
   "theorems": [
    "C43_several_messages",
    "C43_messages_are_chained"
   ],
   "note": ""
  },
  {
   "property": "C44",
   "status": "proved",
   "theorems": [
    "C44_block_change",
    "C44_padding_malleable",
    "C44_iv_change"
   ],
   "note": ""
  },
  {
   "property": "C45",
   "status": "proved",
   "theorems": [
    "C45_prefix_determined",
    "C45_injective"
   ],
   "note": ""
  },
  {
   "property": "C46",
   "status": "proved",
   "theorems": [
    "C46_failed_flush_changes_nothing",
    "C46_failed_flush_invisible",
    "C46_successful_flush_empties"
   ],
   "note": ""
  },
  {
   "property": "C47",
   "status": "proved",
   "theorems": [
    "C47_sound_exactly"
   ],
   "note": "Soundness proved for block sizes 1 to 255 and refuted for every other one."
  },
  {
   "property": "C48",
   "status": "proved",
   "theorems": [
    "C48_display_is_name_and_description",
    "C48_displays_are_distinct",
    "C48_decipher_error_wraps",
    "C48_texts"
   ],
   "note": ""
  },
  {
   "property": "C49",
   "status": "proved",
   "theorems": [
    "C49_acceptance_reveals_nothing_refuted",
    "C49_messages_recovered"
   ],
   "note": "Refuted expectation: a padding-oracle strategy recovers every block and every message, proved for all keys and blocks."
  },
  {
   "property": "C50",
   "status": "proved",
   "theorems": [
    "C50_collisions",
    "C50_compressions_end_in_digest"
   ],
   "note": ""
  },
  {
   "property": "C51",
   "status": "proved",
   "theorems": [
    "C51_secret_prefix_mac_refuted"
   ],
   "note": "Refuted expectation: explicit length-extension function, proved for all secrets, messages and suffixes."
  },
  {
   "property": "C52",
   "status": "proved",
   "theorems": [
    "C52_hmac_collisions"
   ],
   "note": ""
  },
  {
   "property": "C53",
   "status": "proved",
   "theorems": [
    "C53_fixed_points",
    "C53_rounds_bijective"
   ],
   "note": ""
  },
  {
   "property": "C54",
   "status": "proved",
   "theorems": [
    "C54_chequered_inputs_mixed_refuted",
    "C54_zero_gives_zero"
   ],
   "note": "Refuted expectation: a family of 2^32 unmixed inputs, proved for every round count."
  },
  {
   "property": "C55",
   "status": "proved",
   "theorems": [
    "C55_round_keys_determine_key",
    "C55_init_injective"
   ],
   "note": ""
  },
  {
   "property": "C56",
   "status": "proved",
   "theorems": [
    "C56_cipher_memory_bounded",
    "C56_decipher_memory_bounded"
   ],
   "note": ""
  },
  {
   "property": "C57",
   "status": "proved",
   "theorems": [
    "C57_same_results",
    "C57_sha256_constant_time"
   ],
   "note": "Source-level program counter and memory address model (Leak/Ops.v): compiler, division timing and allocator growth are not covered."
  },
  {
   "property": "C58",
   "status": "proved",
   "theorems": [
    "C58_same_results",
    "C58_hmac_constant_time"
   ],
   "note": "Source-level program counter and memory address model (Leak/Ops.v): compiler, division timing and allocator growth are not covered."
  },
  {
   "property": "C59",
   "status": "proved",
   "theorems": [
    "C59_same_results",
    "C59_pbkdf2_constant_time"
   ],
   "note": "Source-level program counter and memory address model (Leak/Ops.v): compiler, division timing and allocator growth are not covered."
  },
  {
   "property": "C60",
   "status": "proved",
   "theorems": [
    "C60_same_results",
    "C60_salsa20_constant_time"
   ],
   "note": "Source-level program counter and memory address model (Leak/Ops.v): compiler, division timing and allocator growth are not covered."
  },
  {
   "property": "C61",
   "status": "proved",
   "theorems": [
    "C61_same_results",
    "C61_scrypt_leaks_exactly_indices",
    "C61_passphrase_hidden_refuted"
   ],
   "note": "Refuted expectation: the record depends on the passphrase (witness); it depends on exactly the table positions. Source-level program counter and memory address model (Leak/Ops.v): compiler, division timing and allocator growth are not covered."
  },
  {
   "property": "C62",
   "status": "proved",
   "theorems": [
    "C62_same_results",
    "C62_encrypt_record_determines_key",
    "C62_decrypt_record_determines_key",
    "C62_record_determines_block"
   ],
   "note": "Refuted expectation, for every pair of different keys or blocks. Source-level program counter and memory address model (Leak/Ops.v): compiler, division timing and allocator growth are not covered."
  },
  {
   "property": "C63",
   "status": "proved",
   "theorems": [
    "C63_same_results",
    "C63_init_record_determines_key"
   ],
   "note": "Refuted expectation, for every pair of different keys of one size. Source-level program counter and memory address model (Leak/Ops.v): compiler, division timing and allocator growth are not covered."
  },
  {
   "property": "C64",
   "status": "proved",
   "theorems": [
    "C64_same_results",
    "C64_pad_constant_time"
   ],
   "note": "Source-level program counter and memory address model (Leak/Ops.v): compiler, division timing and allocator growth are not covered."
  },
  {
   "property": "C65",
   "status": "proved",
   "theorems": [
    "C65_same_results",
    "C65_unpad_leaks_exactly_view",
    "C65_decipher_flush_leaks_exactly_view"
   ],
   "note": "Exact characterisation, both directions. Source-level program counter and memory address model (Leak/Ops.v): compiler, division timing and allocator growth are not covered."
  },
  {
   "property": "C66",
   "status": "proved",
   "theorems": [
    "C66_sha256_portable",
    "C66_hmac_portable",
    "C66_pbkdf2_portable",
    "C66_scrypt_portable",
    "C66_padding_portable",
    "C66_cbc_portable",
    "C66_release_agrees_with_debug_refuted"
   ],
   "note": "Agreement of release with debug builds on one target is refuted by witness (a block size whose double wraps)."
  },
  {
   "property": "C67",
   "status": "proved",
   "theorems": [
    "C67_reads",
    "C67_odd_digit_dropped",
    "C67_rejects",
    "C67_round_trip",
    "C67_odd_length_refused_refuted"
   ],
   "note": "Exact behaviour on every text; refusal of odd lengths is refuted by witness."
  },
  {
   "property": "C68",
   "status": "proved",
   "theorems": [
    "C68_trailing_zeros",
    "C68_long_passphrase",
    "C68_different_keys_refuted"
   ],
   "note": "Refuted expectation: for every salt, parameters and output length two passphrases derive one key; the equivalences are proved for all inputs."
  },
  {
   "property": "C69",
   "status": "proved",
   "theorems": [
    "C69_pbkdf2_collisions",
    "C69_scrypt_collisions",
    "C69_passphrases"
   ],
   "note": ""
  },
  {
   "property": "C70",
   "status": "proved",
   "theorems": [
    "C70_equal_blocks",
    "C70_same_iv"
   ],
   "note": ""
  },
  {
   "property": "C71",
   "status": "proved",
   "theorems": [
    "C71_blocks_of_the_standard",
    "C71_sha256_steps",
    "C71_linear"
   ],
   "note": "Steps are the events of the source-level model Leak/Ops.v."
  },
  {
   "property": "C72",
   "status": "proved",
   "theorems": [
    "C72_pbkdf2_steps",
    "C72_long_password"
   ],
   "note": "Refuted expectation: the exact extra work of long passwords is proved. Steps are the events of the source-level model Leak/Ops.v."
  },
  {
   "property": "C73",
   "status": "proved",
   "theorems": [
    "C73_scrypt_steps",
    "C73_doubling_n"
   ],
   "note": "Steps are the events of the source-level model Leak/Ops.v."
  },
  {
   "property": "C74",
   "status": "proved",
   "theorems": [
    "C74_commutes_with_diagonal",
    "C74_rows_and_columns",
    "C74_circulant_inputs_stay"
   ],
   "note": "Refuted expectation, for every input and number of rounds."
  },
  {
   "property": "C75",
   "status": "proved",
   "theorems": [
    "C75_eq_is_identity",
    "C75_debug_distinct",
    "C75_texts"
   ],
   "note": ""
  },
  {
   "property": "C76",
   "status": "proved",
   "theorems": [
    "C76_init_steps",
    "C76_block_steps",
    "C76_count_gives_nothing_away"
   ],
   "note": "Steps are the events of the source-level model Leak/Ops.v."
  },
  {
   "property": "C77",
   "status": "proved",
   "theorems": [
    "C77_encrypt_steps",
    "C77_encrypt_linear",
    "C77_decrypt_steps",
    "C77_decrypt_linear",
    "C77_flush_steps",
    "C77_failure_is_faster"
   ],
   "note": "Steps are the events of the source-level model Leak/Ops.v. A user's expectation that a failing and a succeeding flush cost the same is REFUTED by C77_failure_is_faster."
  },
  {
   "property": "C78",
   "status": "proved",
   "theorems": [
    "C78_three_counts",
    "C78_one_and_two",
    "C78_test_steps"
   ],
   "note": "The expectation that keys of different iteration counts are unrelated is REFUTED by C78_three_counts and C78_one_and_two."
  },
  {
   "property": "C79",
   "status": "proved",
   "theorems": [
    "C79_unpad_accepts",
    "C79_decipher_accepts",
    "C79_vectors_accepted"
   ],
   "note": ""
  },
  {
   "property": "C80",
   "status": "proved",
   "theorems": [
    "C80_splice_accepted"
   ],
   "note": "The expectation that a rearranged ciphertext is noticed is REFUTED by C80_splice_accepted."
  },
  {
   "property": "C81",
   "status": "proved",
   "theorems": [
    "C81_same_outcomes",
    "C81_hasher_replies",
    "C81_mac_replies",
    "C81_no_digest_after_panic",
    "C81_no_mac_after_panic",
    "C81_unchecked_never_panics",
    "C81_until_panic"
   ],
   "note": ""
  },
  {
   "property": "C82",
   "status": "proved",
   "theorems": [
    "C82_same_outcomes",
    "C82_pbkdf2_keeps_buffer",
    "C82_scrypt_keeps_buffer",
    "C82_salsa20_writes_words",
    "C82_salsa20_short_input",
    "C82_salsa20_keeps_buffer_refuted"
   ],
   "note": "The expectation that salsa20 leaves the output buffer alone when it panics is REFUTED by C82_salsa20_keeps_buffer_refuted."
  },
  {
   "property": "C83",
   "status": "proved",
   "theorems": [
    "C83_hmac_new",
    "C83_pbkdf2",
    "C83_pbkdf2_returns",
    "C83_scrypt_checked",
    "C83_scrypt_wrapping",
    "C83_scrypt_returns"
   ],
   "note": ""
  },
  {
   "property": "C84",
   "status": "proved",
   "theorems": [
    "C84_secret_is_safe_refuted",
    "C84_guess_is_confirmed"
   ],
   "note": "The expectation that ciphertexts hide the secret is REFUTED by C84_secret_is_safe_refuted, which gives the strategy and proves it right for every key."
  },
  {
   "property": "C85",
   "status": "proved",
   "theorems": [
    "C85_accepted_means_authentic_refuted",
    "C85_oracle_without_iv",
    "C85_forgery_under_any_iv"
   ],
   "note": "The expectation that accepted ciphertexts are authentic is REFUTED by C85_accepted_means_authentic_refuted, which gives the forgery for every key and message."
  },
  {
   "property": "C86",
   "status": "proved",
   "theorems": [
    "C86_ciphertexts_of_a_message",
    "C86_lost_block_is_noticed_refuted",
    "C86_encrypted_again"
   ],
   "note": "The exact set is proved; the expectation that a lost block is noticed is REFUTED by C86_lost_block_is_noticed_refuted."
  },
  {
   "property": "C87",
   "status": "proved",
   "theorems": [
    "C87_crowded_digest",
    "C87_collisions_multiply",
    "C87_finder_exists",
    "C87_passwords_of_one_length_refuted"
   ],
   "note": "The expectation that passwords of one length have different keys is REFUTED by C87_passwords_of_one_length_refuted, by counting; no colliding pair is exhibited."
  },
  {
   "property": "C88",
   "status": "proved",
   "theorems": [
    "C88_rounds_of_encrypt",
    "C88_round_returns",
    "C88_one_byte_spreads",
    "C88_four_rounds",
    "C88_rounds_of_decrypt",
    "C88_one_byte_spreads_back",
    "C88_four_rounds_back"
   ],
   "note": ""
  },
  {
   "property": "C89",
   "status": "proved",
   "theorems": [
    "C89_same_results",
    "C89_rejected_takes_nothing",
    "C89_highest",
    "C89_lanes_share_the_table",
    "C89_textbook_size_refuted"
   ],
   "note": "Memory is what Heap/Ops.v records, up to line 293. The expectation of 128*r*n bytes is REFUTED by C89_textbook_size_refuted."
  },
  {
   "property": "C90",
   "status": "proved",
   "theorems": [
    "C90_table",
    "C90_rounds",
    "C90_round",
    "C90_round_exact",
    "C90_four_rounds",
    "C90_round_back",
    "C90_four_rounds_back"
   ],
   "note": ""
  },
  {
   "property": "C91",
   "status": "proved",
   "theorems": [
    "C91_table",
    "C91_round",
    "C91_four_rounds",
    "C91_round_back",
    "C91_four_rounds_back"
   ],
   "note": ""
  },
  {
   "property": "C92",
   "status": "proved",
   "theorems": [
    "C92_one_round",
    "C92_two_rounds",
    "C92_three_rounds",
    "C92_two_rounds_back",
    "C92_three_rounds_back"
   ],
   "note": ""
  },
  {
   "property": "C93",
   "status": "proved",
   "theorems": [
    "C93_same_results",
    "C93_cipher_leaks_exactly",
    "C93_decipher_leaks_exactly",
    "C93_cipher_record_determines_calls",
    "C93_decipher_record_determines_replies"
   ],
   "note": "Visible is what Leak/*.v records. The expectation that the calls hide key and message is REFUTED by C93_cipher_record_determines_calls, for every session."
  },
  {
   "property": "C94",
   "status": "proved",
   "theorems": [
    "C94_smaller_table_same_key",
    "C94_memory_and_work",
    "C94_table_is_needed_refuted",
    "C94_record_sorts_out_passphrases"
   ],
   "note": "The expectation that a key takes a table that grows with n is REFUTED by C94_table_is_needed_refuted, for all parameters."
  },
  {
   "property": "C95",
   "status": "proved",
   "theorems": [
    "C95_partner",
    "C95_new_exchanges_hashers",
    "C95_related_macs",
    "C95_chains"
   ],
   "note": "So the expectation that MACs under different keys are unrelated is refuted for every key."
  },
  {
   "property": "C96",
   "status": "proved",
   "theorems": [
    "C96_block_mix_blind",
    "C96_ro_mix_blind",
    "C96_many_share",
    "C96_few_results",
    "C96_zero_lane",
    "C96_derivations_collide",
    "C96_injective_refuted"
   ],
   "note": "The expectation that different lanes are mixed to different lanes is REFUTED for every lane by C96_injective_refuted."
  },
  {
   "property": "C97",
   "status": "proved",
   "theorems": [
    "C97_hasher_history",
    "C97_hasher_message",
    "C97_shows_after_digest",
    "C97_hmac_holds_key",
    "C97_hmac_after_digest",
    "C97_hmac_shows_after_digest",
    "C97_cipher_holds_key",
    "C97_decipher_holds_key"
   ],
   "note": "The expectation that an HMac does not hold its key is REFUTED for every key and message by C97_hmac_holds_key; only digest removes it. About the objects while they exist: copies the compiler makes, and memory after it is freed, are not modelled."
  },
  {
   "property": "C98",
   "status": "proved",
   "theorems": [
    "C98_every_key_reads_its_blocks",
    "C98_no_other",
    "C98_accepted_under_both",
    "C98_small_sums_will_do",
    "C98_two_messages",
    "C98_one_key_refuted"
   ],
   "note": "The expectation that a ciphertext is accepted under one key only is REFUTED by C98_one_key_refuted. For a particular pair of keys the existence of a suitable last block is a hypothesis of C98_two_messages; C98_accepted_under_both says exactly which blocks are suitable."
  },
  {
   "property": "C99",
   "status": "proved",
   "theorems": [
    "C99_same_key",
    "C99_compressions",
    "C99_compression_steps",
    "C99_program_work",
    "C99_half_refuted"
   ],
   "note": "Compressions of the program are not counted as such: C99_program_work bounds its exact number of steps (C72) from below by 524 steps for each. The expectation that an attacker's cost per password is the program's is REFUTED by C99_half_refuted."
  },
  {
   "property": "C100",
   "status": "proved",
   "theorems": [
    "C100_text_history",
    "C100_text_sha256"
   ],
   "note": "Run on the trees of Source/Tree.v (tools/gen_source.py's parse of src/) by the interpreter of Source/Interp.v; the fuel bounds the depth of calls."
  },
  {
   "property": "C101",
   "status": "proved",
   "theorems": [
    "C101_text_history",
    "C101_text_hmac"
   ],
   "note": "Run on the trees of Source/Tree.v (tools/gen_source.py's parse of src/) by the interpreter of Source/Interp.v; the fuel bounds the depth of calls."
  },
  {
   "property": "C102",
   "status": "proved",
   "theorems": [
    "C102_text_pbkdf2",
    "C102_text_is_model"
   ],
   "note": "Run on the trees of Source/Tree.v (tools/gen_source.py's parse of src/) by the interpreter of Source/Interp.v; the fuel bounds the depth of calls."
  },
  {
   "property": "C103",
   "status": "proved",
   "theorems": [
    "C103_text_salsa20",
    "C103_text_panics"
   ],
   "note": "Run on the trees of Source/Tree.v (tools/gen_source.py's parse of src/) by the interpreter of Source/Interp.v; the fuel bounds the depth of calls."
  },
  {
   "property": "C104",
   "status": "proved",
   "theorems": [
    "C104_text_pad",
    "C104_text_unpad",
    "C104_text_is_model"
   ],
   "note": "Run on the trees of Source/Tree.v (tools/gen_source.py's parse of src/) by the interpreter of Source/Interp.v; the fuel bounds the depth of calls and the turns of while loops."
  },
  {
   "property": "C105",
   "status": "proved",
   "theorems": [
    "C105_text_aes",
    "C105_text_fips197"
   ],
   "note": "Run on the trees of Source/Tree.v (tools/gen_source.py's parse of src/) by the interpreter of Source/Interp.v; the fuel bounds the depth of calls and the turns of while loops."
  },
  {
   "property": "C106",
   "status": "proved",
   "theorems": [
    "C106_text_cipher",
    "C106_text_decipher",
    "C106_text_encrypts",
    "C106_text_round_trip"
   ],
   "note": "Run on the trees of Source/Tree.v (tools/gen_source.py's parse of src/) by the interpreter of Source/Interp.v; the fuel bounds the depth of calls and the turns of while loops. A slice longer than isize::MAX - 16 bytes is excluded: there Vec::with_capacity may be asked for more than isize::MAX."
  },
  {
   "property": "C107",
   "status": "proved",
   "theorems": [
    "C107_text_scrypt",
    "C107_text_rejects",
    "C107_text_is_model"
   ],
   "note": "Run on the trees of Source/Tree.v (tools/gen_source.py's parse of src/) by the interpreter of Source/Interp.v; the fuel bounds the depth of calls and the turns of while loops."
  },
  {
   "property": "C108",
   "status": "proved",
   "theorems": [
    "C108_text_descriptions",
    "C108_text_display"
   ],
   "note": "Run on the trees of Source/Tree.v (tools/gen_source.py's parse of src/) by the interpreter of Source/Interp.v; the fuel bounds the depth of calls and the turns of while loops. A formatter is the text written to it so far, and writing to it succeeds."
  },
  {
   "property": "C109",
   "status": "proved",
   "theorems": [
    "C109_more_fuel",
    "C109_one_outcome",
    "C109_unchecked_build",
    "C109_unchecked_objects",
    "C109_builds_agree_refuted"
   ],
   "note": "About the interpreter of Source/Interp.v and every program in its syntax, so about all 79 functions of Source/Tree.v. The expectation that builds with and without overflow checks do the same is REFUTED by C109_builds_agree_refuted."
  },
  {
   "property": "C110",
   "status": "proved",
   "theorems": [
    "C110_record_only",
    "C110_check_is_right",
    "C110_sha256",
    "C110_hmac",
    "C110_pbkdf2",
    "C110_salsa20",
    "C110_block_mix",
    "C110_pad",
    "C110_aes_parts",
    "C110_others_refuted"
   ],
   "note": "From the text: the record is kept by the interpreter (Source/Observe.v) for every branch, index, slice, loop, size, call and division in the trees of Source/Tree.v, so unlike in C57-C60 nobody decides by hand where something is recorded. The check that finds no secret in the record is proved right for all programs; all 26 functions of sha256.rs, hmac.rs, pbkdf2.rs and salsa20.rs pass it, and 16 of scrypt.rs, pkcs7.rs and aes.rs. That AES key expansion, AES doubling and removing a padding do the same is REFUTED by C110_others_refuted."
  },
  {
   "property": "C111",
   "status": "proved",
   "theorems": [
    "C111_check_is_right",
    "C111_scrypt",
    "C111_aes_init",
    "C111_aes_block",
    "C111_cipher",
    "C111_decipher",
    "C111_scrypt_shows_nothing_refuted"
   ],
   "note": "From the text, with the record and the check of C110; the check also takes the kinds of events that may depend on secrets, and is proved right for each choice: the first difference of two records is in such an event. A branch or an index is allowed anywhere in the AES functions, not only where the text has one on secrets today; which one differs first is not stated. Decipher::flush and Unpad::flush are not checked (C110_others_refuted). C111_scrypt_shows_nothing_refuted: two inputs of ro_mix with different dividends."
  },
  {
   "property": "C112",
   "status": "proved",
   "theorems": [
    "C112_seals",
    "C112_opens",
    "C112_one_passphrase_refuted",
    "C112_refused"
   ],
   "note": "From the text, by C106 and C107, under their size conditions. The client code between the two calls (look at the Result, hand the buffer to init) is written in Coq as `keyed`; /repo has no such client. C112_one_passphrase_refuted: the witness is the passphrase with a zero byte added, or its digest if it is longer than 64 bytes."
  }
 ]
}