# Print Assumptions, theorem by theorem

Generated by tools/assumptions.py from the compiled theories.

## Closed under the global context

C01_int_roundtrip, C02_out_of_range_refused, C03_read_any, C03_read_short, C03_encoding_unique, C04_written, C04_shortest, C04_negative_refused, C04_too_big_leaves_marker, C04_non_int_refused, C05_read_back, C05_over_limit_raises, C05_default_limit, C06_end_of_stream, C06_verdict, C06_not_injective, C07_big_endian_varint, C08_var_bytes, C09_text, C09_utf8_form_exists, C09_utf8_form_unique, C09_surrogates_refused, C09_bytes_verbatim, C09_other_types_refused, C10_SafeReadBytes, C10_SafeReadBytes_negative, C10_ReadVarString, C10_ReadString, C10_ReadVarBytes_shortens, C10_any_count, C10_count_raises, C10_ReadBytes_shortens, C11_hex_decoded, C11_hex_text_denotes, C11_other_verbatim, C11_unhex_false_verbatim, C11_bytearray_same, C11_str_hex, C11_str_other_refused, C11_str_unhex_false_refused, C12_uint160_plain, C12_uint256_plain, C12_uint160_hex_halved, C12_uint256_hex_halved, C12_uint160_survives_iff, C12_uint256_survives_iff, C12_uint160_hex_following, C12_uint256_hex_following, C12_wrong_class_refused, C13_too_long_refused, C13_surrogates_refused, C13_roundtrip, C13_hex_text_shrinks, C14_hashes_roundtrip, C14_malformed_raises, C15_count_is_announced, C15_any_count, C15_amplification, C16_never_inverse, C17_array_roundtrip, C17_none_is_empty, C17_uint256_items, C17_uint160_items, C18_run_until_bad, C18_any_count, C18_only_count_raises, C18_cut, C19_message, C20_reads_only_read, C21_writes_only_append, C22_bool_write, C22_bool_read, C22_char_write, C22_char_read, C22_char_refused, C22_byte_roundtrip, C22_byte_refused, C22_byte_read, C22_byte_at_end_is_zero, C22_byte_raw, C22_bool_at_end_raises, C22_char_at_end_raises, C23_byte_dropped, C23_varint_dropped, C23_varint_long_normal, C24_varint_reported, C24_varbytes_reported, C25_fixed8_roundtrip, C25_fixed8_refused, C25_size, C26_swap32_reverses, C26_swap32_involution, C26_swap32_refused, C27_uint160_bits, C27_uint256_bits, C27_twos_complement, C27_text, C28_construct, C28_construct_160, C28_construct_256, C28_construct_base, C28_refused, C29_text_160, C29_text_256, C29_text_form, C29_prefixed_form, C29_stored_order_form, C29_ascii_form, C30_other_types, C30_parse_160, C30_parse_256, C30_accepts_160, C30_accepts_256, C30_refused, C31_compare, C31_operators, C31_low_byte_ties, C31_incomparable, C32_eq_iff_bytes, C32_equivalence, C32_not_equal_to_others, C32_hash_agrees, C33_equal_hash_after_any_clean_history, C33_hash_follows_bytes, C33_shared_bytearray, C33_equal_different_hash, C34_deserialize, C34_array_of_malformed, C34_read_short_raises, C35_signed_roundtrip, C35_twos_complement, C35_reads_any_encoding, C36_default_decoding, C36_default_roundtrip_iff, C36_unsigned, C36_negative_unsigned, C37_nonneg_shortest, C37_negative_length, C37_negative_one_too_many_iff, C38_division, C38_zero_divisor, C38_shifts, C38_negative_shift, C38_result_class, C38_same_errors, C38_values, C38_constants, C38_unary, C38_not_overridden, C38_other_operands, C38_int_over_zero, C39_exact, C39_constants, C39_group_laws, C39_objects_never_change, C39_inplace_other_variables, C39_inplace_result, C39_binary_result, C39_unary_result, C39_new_and_alias, C40_raw_product, C40_floor_division, C40_zero_divisor, C40_power, C40_division_by_One, C41_zero_divisor, C41_wrong_above, C42_ceil_wrong_above, C42_floor_wrong_above, C43_int, C43_decimal, C43_decimal_any, C43_limit, C43_out_of_range, C43_decimal_not_finite, C43_not_finite, C44_not_finite_raises, C45_little_endian, C45_negative_raises, C46_xor, C46_involution, C46_otherwise_raises, C47_roundtrip, C47_onto, C47_encode_spec, C47_decode_spec, C47_relation_is_one_to_one, C47_other_characters, C48_shape, C48_roundtrip, C48_accepted, C48_injective, C49_accepts, C49_any_version_and_length, C49_failures, C50_iff, C50_total, C50_version_bytes, C50_wrong_versions_accepted, C51_export, C51_import_iff, C51_roundtrip, C51_unique, C51_rejects, C51_other_types, C52_export, C52_short_passphrase, C52_roundtrip, C52_foreign_public_key, C53_import_iff, C53_header_not_checked, C53_other_types, C53_failures, C54_address, C54_infinity, C54_binding, C55_empty, C55_one, C56_leaf_root, C58_trim, C58_twice, C58_node, C59_inner_row_exists, C59_filling, C60_compressed_form, C60_uncompressed_form, C60_decode_compressed, C60_decode_uncompressed, C60_roundtrip, C60_stream, C60_infinity, C60_size, C60_uncompressed_stream, C60_text, C60_text_infinity, C61_compressed, C61_other_bytes, C61_empty, C61_text_not_unhexlified, C61_two_encodings, C62_checked, C62_check_passes, C62_unchecked, C62_FromBytes_blob, C62_FromBytes_raises, C62_FromBytes_other, C62_FromBytes_text, C62_FromBytes_other_types, C63_results_canonical, C63_ring_ops, C63_division, C63_division_by_zero, C63_negated_zero, C63_negative_divisor, C64_gcd, C64_modinv, C64_modinv_negative, C65_closed, C65_unique, C65_commutative, C65_neutral, C65_opposite, C65_negation, C65_minus_infinity, C65_minus_infinity_wrong, C65_minus_infinity_named, C66_not_identity, C66_zero, C67_order, C67_canonical, C67_incomparable, C68_arguments, C68_crack1, C68_crack1_sign, C68_crack2, C68_crack2_wrong_order, C69_root, C69_out_of_range, C69_one_mod_four, C70_edge, C71_lengths, C71_private, C71_private_fails, C71_blob, C71_other_types, C72_roundtrip, C72_accepts, C72_value, C72_only_ConversionError, C73_lucas, C73_refused, C73_even, C74_verdict, C74_point, C74_compressed, C74_no_such_point, C74_not_bytes, C74_exceptions, C75_float_infinite, C75_nan, C75_short, C76_end_of_stream, C76_truncated, C77_never_returns, C77_findpk2, C77_sign_helper, C77_findpk_type_error, C78_rejected, C79_exponent, C79_wrong, C80_constants, C80_history, C80_import_result, C80_wrong_curve, C81_signature, C81_signs, C81_not_hex, C81_sign_verify, C82_digests, C82_hex_data, C82_raw_data, C82_refused, C82_text_refused, C83_zero, C83_limit, C84_repr, C84_literal_unique, C84_quote, C84_shortest, C84_address, C84_bad_checksum, C84_not_base58, C84_scripthash, C84_scripthash_rejected, C84_feedback, C84_wallet, C84_wallet_fails, C84_no_arguments, C84_sequence, C84_status, C85_group, C85_associative, C85_cancel, C85_subtract, C85_named, C86_digits, C87_order, C89_refused, C90_plain_amounts, C90_same_numbers, C90_who_stays_big, C90_division, C90_prints_whole_units, C90_collisions, C90_rounding, C90_equal_but_different, C90_from_decimal, C91_default_is_utf8, C91_one_byte, C91_one_byte_refused, C91_utf16_fails, C91_utf16_bytes_fail, C91_utf16_empty, C91_utf32_refused, C91_surrogates_refused, C91_other_types, C91_codecs, C92_int_like, C92_other_refused, C93_bytesio, C93_checked_calls, C93_one_fault, C93_error_reads_as_zero, C93_full_service, C93_short_read, C93_list_2000, C94_bytesio, C94_same_writes, C94_crash, C94_short_writes, C94_all_lost, C94_torn_message, C95_urandom_matters, C95_all_matter, C95_no_separator, C96_default, C96_address, C96_scripthash_to_address, C96_distinct, C96_roundtrip, C96_validity, C96_key_address, C96_nep2, C96_bad_version, C97_operators, C97_bad_operand, C97_power, C97_direct, C97_equality, C97_equality_not_symmetric, C97_iszero, C97_text, C97_text_injective, C97_text_is_not_hexadecimal, C98_sum, C98_interchangeable, C98_foreign, C98_foreign_difference, C98_foreign_not_commutative, C98_text, C99_public_key, C99_point, C99_injective, C99_sum, C99_keylib, C99_address, C99_address_binding, C99_zero_key, C99_nep2, C100_signature, C100_nonce, C100_sign_verify, C101_accepts, C101_accepts_point, C101_accepts_compressed, C101_malleable, C101_binding, C101_large_coordinate, C102_anywhere, C102_history, C102_determined, C102_at_end, C102_everywhere, C102_sequence, C102_patch, C102_shorter_leaves_tail, C103_compare, C103_foreign_raises, C103_unrelated_accepted, C103_truth_and_hash, C103_in_amounts, C103_in_foreign, C103_sum, C103_sum_any_order, C103_sum_default, C104_not_found, C104_no_dot, C104_found, C104_constructor_fails, C104_no_deserialize, C104_mixin, C104_uint_beyond_end, C105_aes, C105_aes_inverse, C105_aes_errors, C105_aes_unique, C105_aes_exact, C105_scrypt, C105_scrypt_exact, C105_keylib, C105_text, C105_roundtrip, C105_open, C106_scrypt, C106_import, C106_export, C106_nul, C107_other, C107_signalling, C108_sha256, C108_ripemd160, C108_functions, C108_hash256, C108_hash160, C108_address, C108_script_to_address, C109_uints, C109_one_element, C109_trim_text, C109_trim_list, C110_not_written, C110_ints, C110_contagious, C110_unary, C110_from_ints, C110_nan, C110_no_int, C110_sum_wrong, C111_own_setup, C111_settled, C111_published, C111_old_or_new, C111_finishes, C111_instance_settled, C111_mixed, C111_default_race, C112_uninterrupted, C112_atomic, C112_append, C112_torn_write, C112_torn_read, C113_order_write, C113_order_read, C113_punctuation, C113_not_ascii, C113_write_any, C113_read_any, C113_padding, C113_varint_order, C113_varint_small, C113_varint_marker_left, C113_varbytes_marker_left, C113_varbytes_order, C114_gcd, C114_lame, C114_default_limit, C114_too_deep, C114_division, C114_division_256, C115_one, C116_sorted, C116_all_tied, C116_order_of_arrival_matters, C116_canonical, C116_mixed_sizes, C116_min, C116_max, C116_min_max_refused, C116_contract_met, C117_map, C117_keys, C117_mutated_key, C117_two_equal_keys, C117_deserialized_key, C118_accepted, C118_one_reading, C118_nothing_else, C118_usage_error, C118_help, C118_one_option, C118_address_and_back, C119_Equals, C119_condition, C119_FromBytes, C120_text_passphrase, C120_export, C120_import, C120_address, C120_bytes, C120_signature, C120_key, C121_bytes, C121_others, C121_script_hash, C121_address_of_uint256, C121_base256_ints, C121_base256_ints_too, C121_base256_others, C121_base256_infinity, C122_big_left, C122_nan, C122_not_the_same, C122_power, C122_sum, C123_bytes, C123_one_value, C123_others, C123_class, C124_contagious, C124_not_written

## `ClassicalDedekindReals.sig_forall_dec`, `ClassicalDedekindReals.sig_not_dec`, `Classical_Prop.classic`, `FunctionalExtensionality.functional_extensionality_dep`

C38_int_over_big, C41_exact, C41_general, C42_floor, C42_ceil, C42_toint, C43_float, C43_nearest_float, C43_whole_float, C44_text, C44_plain_decimal, C44_whole_text, C44_int, C44_huge_int, C44_require_positive, C55_root, C55_total, C56_shape, C57_hashes, C57_duplicates, C58_constructed, C59_binding, C59_odd_repeat, C59_inner_row, C59_repeated_block, C59_exact, C66_mul, C66_negative, C66_odd, C66_17_19, C66_any_scalar, C66_overflow, C70_value, C70_too_large, C75_float_any_bytes, C75_float_rounds, C75_float_roundtrip_iff, C75_int, C75_small_int, C75_refused, C77_type_error, C77_recover, C78_exact, C78_rejected_secp256k1, C83_reads_back, C83_too_large, C83_exact, C83_small, C83_json_whole, C83_json_other, C83_distinct, C83_parse_back, C83_shortest, C83_json_whole_large, C86_small, C86_any_scalar, C86_additive, C86_agree, C87_never, C87_two_scalars, C88_few_keys, C88_collision, C89_divide, C89_one, C89_right_secp256r1, C89_right_secp256k1, C95_key, C95_bad_clock, C103_between_amounts, C107_number, C107_too_large, C107_infinite, C107_nan, C107_none_text, C107_none_bytes, C107_one_meaning, C107_eight_decimals, C107_decimal, C107_int, C107_huge_int, C109_other_elements, C109_trim_ascii, C109_trim_number, C110_negative_exponent, C110_comparisons, C110_arithmetic, C110_floordiv, C110_zero_quotient, C110_whole_numbers, C110_units, C110_not_decimal, C114_tree, C114_root, C114_search, C114_trim, C114_trees_fit, C115_tree, C115_root_stays, C115_detects, C115_hash_array, C115_stale_set, C115_root_writable, C115_reachable, C121_base256_float, C121_base256_float_width, C122_float_arithmetic, C122_too_large, C122_divmod, C122_comparisons, C122_negative_exponent, C122_sum_divides_as_int, C123_text, C123_round_trip, C124_arithmetic, C124_division, C124_exact, C124_floor_differs, C124_units, C124_negation

## `ClassicalDedekindReals.sig_forall_dec`, `FunctionalExtensionality.functional_extensionality_dep`

C75_double_roundtrip, C75_double_any_bytes, C110_infinity, C122_infinity, C123_float, C123_decimal, C124_zero_divisor, C124_comparisons, C124_ints
