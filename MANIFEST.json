{
 "claims": [
  {
   "property": "C01",
   "status": "proved",
   "theorems": [
    "C01_int_roundtrip"
   ],
   "note": ""
  },
  {
   "property": "C02",
   "status": "proved",
   "theorems": [
    "C02_out_of_range_refused"
   ],
   "note": ""
  },
  {
   "property": "C03",
   "status": "proved",
   "theorems": [
    "C03_read_any",
    "C03_read_short",
    "C03_encoding_unique"
   ],
   "note": ""
  },
  {
   "property": "C04",
   "status": "proved",
   "theorems": [
    "C04_written",
    "C04_shortest",
    "C04_negative_refused",
    "C04_too_big_leaves_marker",
    "C04_non_int_refused"
   ],
   "note": ""
  },
  {
   "property": "C05",
   "status": "proved",
   "theorems": [
    "C05_read_back",
    "C05_over_limit_raises",
    "C05_default_limit"
   ],
   "note": ""
  },
  {
   "property": "C06",
   "status": "proved",
   "theorems": [
    "C06_end_of_stream",
    "C06_verdict",
    "C06_not_injective"
   ],
   "note": ""
  },
  {
   "property": "C07",
   "status": "proved",
   "theorems": [
    "C07_big_endian_varint"
   ],
   "note": ""
  },
  {
   "property": "C08",
   "status": "proved",
   "theorems": [
    "C08_var_bytes"
   ],
   "note": ""
  },
  {
   "property": "C09",
   "status": "proved",
   "theorems": [
    "C09_text",
    "C09_utf8_form_exists",
    "C09_utf8_form_unique",
    "C09_surrogates_refused",
    "C09_bytes_verbatim",
    "C09_other_types_refused"
   ],
   "note": ""
  },
  {
   "property": "C10",
   "status": "proved",
   "theorems": [
    "C10_SafeReadBytes",
    "C10_SafeReadBytes_negative",
    "C10_ReadVarString",
    "C10_ReadString",
    "C10_ReadVarBytes_shortens",
    "C10_any_count",
    "C10_count_raises",
    "C10_ReadBytes_shortens"
   ],
   "note": ""
  },
  {
   "property": "C11",
   "status": "proved",
   "theorems": [
    "C11_hex_decoded",
    "C11_hex_text_denotes",
    "C11_other_verbatim",
    "C11_unhex_false_verbatim",
    "C11_bytearray_same",
    "C11_str_hex",
    "C11_str_other_refused",
    "C11_str_unhex_false_refused"
   ],
   "note": ""
  },
  {
   "property": "C12",
   "status": "proved",
   "theorems": [
    "C12_uint160_plain",
    "C12_uint256_plain",
    "C12_uint160_hex_halved",
    "C12_uint256_hex_halved",
    "C12_uint160_survives_iff",
    "C12_uint256_survives_iff",
    "C12_uint160_hex_following",
    "C12_uint256_hex_following",
    "C12_wrong_class_refused"
   ],
   "note": ""
  },
  {
   "property": "C13",
   "status": "proved",
   "theorems": [
    "C13_too_long_refused",
    "C13_surrogates_refused",
    "C13_roundtrip",
    "C13_hex_text_shrinks"
   ],
   "note": ""
  },
  {
   "property": "C14",
   "status": "proved",
   "theorems": [
    "C14_hashes_roundtrip",
    "C14_malformed_raises"
   ],
   "note": ""
  },
  {
   "property": "C15",
   "status": "proved",
   "theorems": [
    "C15_count_is_announced",
    "C15_any_count",
    "C15_amplification"
   ],
   "note": ""
  },
  {
   "property": "C16",
   "status": "proved",
   "theorems": [
    "C16_never_inverse"
   ],
   "note": ""
  },
  {
   "property": "C17",
   "status": "proved",
   "theorems": [
    "C17_array_roundtrip",
    "C17_none_is_empty",
    "C17_uint256_items",
    "C17_uint160_items"
   ],
   "note": ""
  },
  {
   "property": "C18",
   "status": "proved",
   "theorems": [
    "C18_run_until_bad",
    "C18_any_count",
    "C18_only_count_raises",
    "C18_cut"
   ],
   "note": ""
  },
  {
   "property": "C19",
   "status": "proved",
   "theorems": [
    "C19_message"
   ],
   "note": ""
  },
  {
   "property": "C20",
   "status": "proved",
   "theorems": [
    "C20_reads_only_read"
   ],
   "note": ""
  },
  {
   "property": "C21",
   "status": "proved",
   "theorems": [
    "C21_writes_only_append"
   ],
   "note": ""
  },
  {
   "property": "C22",
   "status": "proved",
   "theorems": [
    "C22_bool_write",
    "C22_bool_read",
    "C22_char_write",
    "C22_char_read",
    "C22_char_refused",
    "C22_byte_roundtrip",
    "C22_byte_refused",
    "C22_byte_read",
    "C22_byte_at_end_is_zero",
    "C22_byte_raw",
    "C22_bool_at_end_raises",
    "C22_char_at_end_raises"
   ],
   "note": ""
  },
  {
   "property": "C23",
   "status": "proved",
   "theorems": [
    "C23_byte_dropped",
    "C23_varint_dropped",
    "C23_varint_long_normal"
   ],
   "note": ""
  },
  {
   "property": "C24",
   "status": "proved",
   "theorems": [
    "C24_varint_reported",
    "C24_varbytes_reported"
   ],
   "note": ""
  },
  {
   "property": "C25",
   "status": "proved",
   "theorems": [
    "C25_fixed8_roundtrip",
    "C25_fixed8_refused",
    "C25_size"
   ],
   "note": ""
  },
  {
   "property": "C26",
   "status": "proved",
   "theorems": [
    "C26_swap32_reverses",
    "C26_swap32_involution",
    "C26_swap32_refused"
   ],
   "note": ""
  },
  {
   "property": "C27",
   "status": "proved",
   "theorems": [
    "C27_uint160_bits",
    "C27_uint256_bits",
    "C27_twos_complement",
    "C27_text"
   ],
   "note": ""
  },
  {
   "property": "C28",
   "status": "proved",
   "theorems": [
    "C28_construct",
    "C28_construct_160",
    "C28_construct_256",
    "C28_construct_base",
    "C28_refused"
   ],
   "note": ""
  },
  {
   "property": "C29",
   "status": "proved",
   "theorems": [
    "C29_text_160",
    "C29_text_256",
    "C29_text_form",
    "C29_prefixed_form",
    "C29_stored_order_form",
    "C29_ascii_form"
   ],
   "note": ""
  },
  {
   "property": "C30",
   "status": "proved",
   "theorems": [
    "C30_other_types",
    "C30_parse_160",
    "C30_parse_256",
    "C30_accepts_160",
    "C30_accepts_256",
    "C30_refused"
   ],
   "note": ""
  },
  {
   "property": "C31",
   "status": "proved",
   "theorems": [
    "C31_compare",
    "C31_operators",
    "C31_low_byte_ties",
    "C31_incomparable"
   ],
   "note": ""
  },
  {
   "property": "C32",
   "status": "proved",
   "theorems": [
    "C32_eq_iff_bytes",
    "C32_equivalence",
    "C32_not_equal_to_others",
    "C32_hash_agrees"
   ],
   "note": ""
  },
  {
   "property": "C33",
   "status": "proved",
   "theorems": [
    "C33_equal_hash_after_any_clean_history",
    "C33_hash_follows_bytes",
    "C33_shared_bytearray",
    "C33_equal_different_hash"
   ],
   "note": ""
  },
  {
   "property": "C34",
   "status": "proved",
   "theorems": [
    "C34_deserialize",
    "C34_array_of_malformed",
    "C34_read_short_raises"
   ],
   "note": ""
  },
  {
   "property": "C35",
   "status": "proved",
   "theorems": [
    "C35_signed_roundtrip",
    "C35_twos_complement",
    "C35_reads_any_encoding"
   ],
   "note": ""
  },
  {
   "property": "C36",
   "status": "proved",
   "theorems": [
    "C36_default_decoding",
    "C36_default_roundtrip_iff",
    "C36_unsigned",
    "C36_negative_unsigned"
   ],
   "note": ""
  },
  {
   "property": "C37",
   "status": "proved",
   "theorems": [
    "C37_nonneg_shortest",
    "C37_negative_length",
    "C37_negative_one_too_many_iff"
   ],
   "note": ""
  },
  {
   "property": "C38",
   "status": "proved",
   "theorems": [
    "C38_division",
    "C38_zero_divisor",
    "C38_shifts",
    "C38_negative_shift",
    "C38_result_class",
    "C38_same_errors",
    "C38_values",
    "C38_constants",
    "C38_unary",
    "C38_not_overridden",
    "C38_other_operands",
    "C38_int_over_big",
    "C38_int_over_zero"
   ],
   "note": ""
  },
  {
   "property": "C39",
   "status": "proved",
   "theorems": [
    "C39_exact",
    "C39_constants",
    "C39_group_laws",
    "C39_objects_never_change",
    "C39_inplace_other_variables",
    "C39_inplace_result",
    "C39_binary_result",
    "C39_unary_result",
    "C39_new_and_alias"
   ],
   "note": ""
  },
  {
   "property": "C40",
   "status": "proved",
   "theorems": [
    "C40_raw_product",
    "C40_floor_division",
    "C40_zero_divisor",
    "C40_power",
    "C40_division_by_One"
   ],
   "note": ""
  },
  {
   "property": "C41",
   "status": "proved",
   "theorems": [
    "C41_exact",
    "C41_zero_divisor",
    "C41_general",
    "C41_wrong_above"
   ],
   "note": ""
  },
  {
   "property": "C42",
   "status": "proved",
   "theorems": [
    "C42_floor",
    "C42_ceil",
    "C42_toint",
    "C42_ceil_wrong_above",
    "C42_floor_wrong_above"
   ],
   "note": ""
  },
  {
   "property": "C43",
   "status": "proved",
   "theorems": [
    "C43_int",
    "C43_decimal",
    "C43_decimal_any",
    "C43_limit",
    "C43_out_of_range",
    "C43_decimal_not_finite",
    "C43_float",
    "C43_not_finite",
    "C43_nearest_float",
    "C43_whole_float"
   ],
   "note": ""
  },
  {
   "property": "C44",
   "status": "proved",
   "theorems": [
    "C44_text",
    "C44_plain_decimal",
    "C44_whole_text",
    "C44_int",
    "C44_huge_int",
    "C44_require_positive",
    "C44_not_finite_raises"
   ],
   "note": ""
  },
  {
   "property": "C45",
   "status": "proved",
   "theorems": [
    "C45_little_endian",
    "C45_negative_raises"
   ],
   "note": ""
  },
  {
   "property": "C46",
   "status": "proved",
   "theorems": [
    "C46_xor",
    "C46_involution",
    "C46_otherwise_raises"
   ],
   "note": ""
  },
  {
   "property": "C47",
   "status": "proved",
   "theorems": [
    "C47_roundtrip",
    "C47_onto",
    "C47_encode_spec",
    "C47_decode_spec",
    "C47_relation_is_one_to_one",
    "C47_other_characters"
   ],
   "note": ""
  },
  {
   "property": "C48",
   "status": "proved",
   "theorems": [
    "C48_shape",
    "C48_roundtrip",
    "C48_accepted",
    "C48_injective"
   ],
   "note": ""
  },
  {
   "property": "C49",
   "status": "proved",
   "theorems": [
    "C49_accepts",
    "C49_any_version_and_length",
    "C49_failures"
   ],
   "note": ""
  },
  {
   "property": "C50",
   "status": "proved",
   "theorems": [
    "C50_iff",
    "C50_total",
    "C50_version_bytes",
    "C50_wrong_versions_accepted"
   ],
   "note": ""
  },
  {
   "property": "C51",
   "status": "proved",
   "theorems": [
    "C51_export",
    "C51_import_iff",
    "C51_roundtrip",
    "C51_unique",
    "C51_rejects",
    "C51_other_types"
   ],
   "note": ""
  },
  {
   "property": "C52",
   "status": "proved",
   "theorems": [
    "C52_export",
    "C52_short_passphrase",
    "C52_roundtrip",
    "C52_foreign_public_key"
   ],
   "note": ""
  },
  {
   "property": "C53",
   "status": "proved",
   "theorems": [
    "C53_import_iff",
    "C53_header_not_checked",
    "C53_other_types",
    "C53_failures"
   ],
   "note": ""
  },
  {
   "property": "C54",
   "status": "proved",
   "theorems": [
    "C54_address",
    "C54_infinity",
    "C54_binding"
   ],
   "note": ""
  },
  {
   "property": "C55",
   "status": "proved",
   "theorems": [
    "C55_root",
    "C55_total",
    "C55_empty",
    "C55_one"
   ],
   "note": ""
  },
  {
   "property": "C56",
   "status": "proved",
   "theorems": [
    "C56_shape",
    "C56_leaf_root"
   ],
   "note": ""
  },
  {
   "property": "C57",
   "status": "proved",
   "theorems": [
    "C57_hashes",
    "C57_duplicates"
   ],
   "note": ""
  },
  {
   "property": "C58",
   "status": "proved",
   "theorems": [
    "C58_trim",
    "C58_constructed",
    "C58_twice",
    "C58_node"
   ],
   "note": ""
  },
  {
   "property": "C59",
   "status": "proved",
   "theorems": [
    "C59_binding",
    "C59_odd_repeat",
    "C59_inner_row",
    "C59_inner_row_exists",
    "C59_repeated_block",
    "C59_filling",
    "C59_exact"
   ],
   "note": ""
  },
  {
   "property": "C60",
   "status": "proved",
   "theorems": [
    "C60_compressed_form",
    "C60_uncompressed_form",
    "C60_decode_compressed",
    "C60_decode_uncompressed",
    "C60_roundtrip",
    "C60_stream",
    "C60_infinity",
    "C60_size",
    "C60_uncompressed_stream",
    "C60_text",
    "C60_text_infinity"
   ],
   "note": ""
  },
  {
   "property": "C61",
   "status": "proved",
   "theorems": [
    "C61_compressed",
    "C61_other_bytes",
    "C61_empty",
    "C61_text_not_unhexlified",
    "C61_two_encodings"
   ],
   "note": ""
  },
  {
   "property": "C62",
   "status": "proved",
   "theorems": [
    "C62_checked",
    "C62_check_passes",
    "C62_unchecked",
    "C62_FromBytes_blob",
    "C62_FromBytes_raises",
    "C62_FromBytes_other",
    "C62_FromBytes_text",
    "C62_FromBytes_other_types"
   ],
   "note": ""
  },
  {
   "property": "C63",
   "status": "proved",
   "theorems": [
    "C63_results_canonical",
    "C63_ring_ops",
    "C63_division",
    "C63_division_by_zero",
    "C63_negated_zero",
    "C63_negative_divisor"
   ],
   "note": ""
  },
  {
   "property": "C64",
   "status": "proved",
   "theorems": [
    "C64_gcd",
    "C64_modinv",
    "C64_modinv_negative"
   ],
   "note": ""
  },
  {
   "property": "C65",
   "status": "proved",
   "theorems": [
    "C65_closed",
    "C65_unique",
    "C65_commutative",
    "C65_neutral",
    "C65_opposite",
    "C65_negation",
    "C65_minus_infinity",
    "C65_minus_infinity_wrong",
    "C65_minus_infinity_named"
   ],
   "note": ""
  },
  {
   "property": "C66",
   "status": "proved",
   "theorems": [
    "C66_not_identity",
    "C66_zero",
    "C66_mul",
    "C66_negative",
    "C66_odd",
    "C66_17_19",
    "C66_any_scalar",
    "C66_overflow"
   ],
   "note": ""
  },
  {
   "property": "C67",
   "status": "proved",
   "theorems": [
    "C67_order",
    "C67_canonical",
    "C67_incomparable"
   ],
   "note": ""
  },
  {
   "property": "C68",
   "status": "proved",
   "theorems": [
    "C68_arguments",
    "C68_crack1",
    "C68_crack1_sign",
    "C68_crack2",
    "C68_crack2_wrong_order"
   ],
   "note": ""
  },
  {
   "property": "C69",
   "status": "proved",
   "theorems": [
    "C69_root",
    "C69_out_of_range",
    "C69_one_mod_four"
   ],
   "note": ""
  },
  {
   "property": "C70",
   "status": "proved",
   "theorems": [
    "C70_value",
    "C70_too_large",
    "C70_edge"
   ],
   "note": ""
  },
  {
   "property": "C71",
   "status": "proved",
   "theorems": [
    "C71_lengths",
    "C71_private",
    "C71_private_fails",
    "C71_blob",
    "C71_other_types"
   ],
   "note": ""
  },
  {
   "property": "C72",
   "status": "proved",
   "theorems": [
    "C72_roundtrip",
    "C72_accepts",
    "C72_value",
    "C72_only_ConversionError"
   ],
   "note": ""
  },
  {
   "property": "C73",
   "status": "proved",
   "theorems": [
    "C73_lucas",
    "C73_refused",
    "C73_even"
   ],
   "note": ""
  },
  {
   "property": "C74",
   "status": "proved",
   "theorems": [
    "C74_verdict",
    "C74_point",
    "C74_compressed",
    "C74_no_such_point",
    "C74_not_bytes",
    "C74_exceptions"
   ],
   "note": ""
  },
  {
   "property": "C75",
   "status": "proved",
   "theorems": [
    "C75_double_roundtrip",
    "C75_double_any_bytes",
    "C75_float_any_bytes",
    "C75_float_rounds",
    "C75_float_roundtrip_iff",
    "C75_float_infinite",
    "C75_nan",
    "C75_int",
    "C75_small_int",
    "C75_refused",
    "C75_short"
   ],
   "note": ""
  },
  {
   "property": "C76",
   "status": "proved",
   "theorems": [
    "C76_end_of_stream",
    "C76_truncated"
   ],
   "note": ""
  },
  {
   "property": "C77",
   "status": "proved",
   "theorems": [
    "C77_never_returns",
    "C77_type_error",
    "C77_findpk2",
    "C77_sign_helper",
    "C77_findpk_type_error",
    "C77_recover"
   ],
   "note": ""
  },
  {
   "property": "C78",
   "status": "proved",
   "theorems": [
    "C78_rejected",
    "C78_exact",
    "C78_rejected_secp256k1"
   ],
   "note": ""
  },
  {
   "property": "C79",
   "status": "proved",
   "theorems": [
    "C79_exponent",
    "C79_wrong"
   ],
   "note": ""
  },
  {
   "property": "C80",
   "status": "proved",
   "theorems": [
    "C80_constants",
    "C80_history",
    "C80_import_result",
    "C80_wrong_curve"
   ],
   "note": ""
  },
  {
   "property": "C81",
   "status": "proved",
   "theorems": [
    "C81_signature",
    "C81_signs",
    "C81_not_hex",
    "C81_sign_verify"
   ],
   "note": ""
  },
  {
   "property": "C82",
   "status": "proved",
   "theorems": [
    "C82_digests",
    "C82_hex_data",
    "C82_raw_data",
    "C82_refused",
    "C82_text_refused"
   ],
   "note": ""
  },
  {
   "property": "C83",
   "status": "proved",
   "theorems": [
    "C83_reads_back",
    "C83_too_large",
    "C83_exact",
    "C83_small",
    "C83_zero",
    "C83_json_whole",
    "C83_json_other",
    "C83_distinct",
    "C83_limit",
    "C83_parse_back",
    "C83_shortest",
    "C83_json_whole_large"
   ],
   "note": ""
  },
  {
   "property": "C84",
   "status": "proved",
   "theorems": [
    "C84_repr",
    "C84_literal_unique",
    "C84_quote",
    "C84_shortest",
    "C84_address",
    "C84_bad_checksum",
    "C84_not_base58",
    "C84_scripthash",
    "C84_scripthash_rejected",
    "C84_feedback",
    "C84_wallet",
    "C84_wallet_fails",
    "C84_no_arguments",
    "C84_sequence",
    "C84_status"
   ],
   "note": ""
  },
  {
   "property": "C85",
   "status": "proved",
   "theorems": [
    "C85_group",
    "C85_associative",
    "C85_cancel",
    "C85_subtract",
    "C85_named"
   ],
   "note": ""
  },
  {
   "property": "C86",
   "status": "proved",
   "theorems": [
    "C86_digits",
    "C86_small",
    "C86_any_scalar",
    "C86_additive",
    "C86_agree"
   ],
   "note": ""
  },
  {
   "property": "C87",
   "status": "proved",
   "theorems": [
    "C87_order",
    "C87_never",
    "C87_two_scalars"
   ],
   "note": ""
  },
  {
   "property": "C88",
   "status": "proved",
   "theorems": [
    "C88_few_keys",
    "C88_collision"
   ],
   "note": ""
  },
  {
   "property": "C89",
   "status": "proved",
   "theorems": [
    "C89_refused",
    "C89_divide",
    "C89_one",
    "C89_right_secp256r1",
    "C89_right_secp256k1"
   ],
   "note": ""
  },
  {
   "property": "C90",
   "status": "proved",
   "theorems": [
    "C90_plain_amounts",
    "C90_same_numbers",
    "C90_who_stays_big",
    "C90_division",
    "C90_prints_whole_units",
    "C90_collisions",
    "C90_rounding",
    "C90_equal_but_different",
    "C90_from_decimal"
   ],
   "note": ""
  },
  {
   "property": "C91",
   "status": "proved",
   "theorems": [
    "C91_default_is_utf8",
    "C91_one_byte",
    "C91_one_byte_refused",
    "C91_utf16_fails",
    "C91_utf16_bytes_fail",
    "C91_utf16_empty",
    "C91_utf32_refused",
    "C91_surrogates_refused",
    "C91_other_types",
    "C91_codecs"
   ],
   "note": ""
  },
  {
   "property": "C92",
   "status": "proved",
   "theorems": [
    "C92_int_like",
    "C92_other_refused"
   ],
   "note": ""
  },
  {
   "property": "C93",
   "status": "proved",
   "theorems": [
    "C93_bytesio",
    "C93_checked_calls",
    "C93_one_fault",
    "C93_error_reads_as_zero",
    "C93_full_service",
    "C93_short_read",
    "C93_list_2000"
   ],
   "note": ""
  },
  {
   "property": "C94",
   "status": "proved",
   "theorems": [
    "C94_bytesio",
    "C94_same_writes",
    "C94_crash",
    "C94_short_writes",
    "C94_all_lost",
    "C94_torn_message"
   ],
   "note": ""
  },
  {
   "property": "C95",
   "status": "proved",
   "theorems": [
    "C95_key",
    "C95_bad_clock",
    "C95_urandom_matters",
    "C95_all_matter",
    "C95_no_separator"
   ],
   "note": ""
  },
  {
   "property": "C96",
   "status": "proved",
   "theorems": [
    "C96_default",
    "C96_address",
    "C96_scripthash_to_address",
    "C96_distinct",
    "C96_roundtrip",
    "C96_validity",
    "C96_key_address",
    "C96_nep2",
    "C96_bad_version"
   ],
   "note": ""
  },
  {
   "property": "C97",
   "status": "proved",
   "theorems": [
    "C97_operators",
    "C97_bad_operand",
    "C97_power",
    "C97_direct",
    "C97_equality",
    "C97_equality_not_symmetric",
    "C97_iszero",
    "C97_text",
    "C97_text_injective",
    "C97_text_is_not_hexadecimal"
   ],
   "note": ""
  },
  {
   "property": "C98",
   "status": "proved",
   "theorems": [
    "C98_sum",
    "C98_interchangeable",
    "C98_foreign",
    "C98_foreign_difference",
    "C98_foreign_not_commutative",
    "C98_text"
   ],
   "note": ""
  },
  {
   "property": "C99",
   "status": "proved",
   "theorems": [
    "C99_public_key",
    "C99_point",
    "C99_injective",
    "C99_sum",
    "C99_keylib",
    "C99_address",
    "C99_address_binding",
    "C99_zero_key",
    "C99_nep2"
   ],
   "note": ""
  },
  {
   "property": "C100",
   "status": "proved",
   "theorems": [
    "C100_signature",
    "C100_nonce",
    "C100_sign_verify"
   ],
   "note": ""
  },
  {
   "property": "C101",
   "status": "proved",
   "theorems": [
    "C101_accepts",
    "C101_accepts_point",
    "C101_accepts_compressed",
    "C101_malleable",
    "C101_binding",
    "C101_large_coordinate"
   ],
   "note": ""
  },
  {
   "property": "C102",
   "status": "proved",
   "theorems": [
    "C102_anywhere",
    "C102_history",
    "C102_determined",
    "C102_at_end",
    "C102_everywhere",
    "C102_sequence",
    "C102_patch",
    "C102_shorter_leaves_tail"
   ],
   "note": ""
  },
  {
   "property": "C103",
   "status": "proved",
   "theorems": [
    "C103_compare",
    "C103_between_amounts",
    "C103_foreign_raises",
    "C103_unrelated_accepted",
    "C103_truth_and_hash",
    "C103_in_amounts",
    "C103_in_foreign",
    "C103_sum",
    "C103_sum_any_order",
    "C103_sum_default"
   ],
   "note": ""
  },
  {
   "property": "C104",
   "status": "proved",
   "theorems": [
    "C104_not_found",
    "C104_no_dot",
    "C104_found",
    "C104_constructor_fails",
    "C104_no_deserialize",
    "C104_mixin",
    "C104_uint_beyond_end"
   ],
   "note": ""
  },
  {
   "property": "C105",
   "status": "proved",
   "theorems": [
    "C105_aes",
    "C105_aes_inverse",
    "C105_aes_errors",
    "C105_aes_unique",
    "C105_aes_exact",
    "C105_scrypt",
    "C105_scrypt_exact",
    "C105_keylib",
    "C105_text",
    "C105_roundtrip",
    "C105_open"
   ],
   "note": ""
  },
  {
   "property": "C106",
   "status": "proved",
   "theorems": [
    "C106_scrypt",
    "C106_import",
    "C106_export",
    "C106_nul"
   ],
   "note": ""
  },
  {
   "property": "C107",
   "status": "proved",
   "theorems": [
    "C107_number",
    "C107_too_large",
    "C107_infinite",
    "C107_nan",
    "C107_none_text",
    "C107_none_bytes",
    "C107_one_meaning",
    "C107_eight_decimals",
    "C107_decimal",
    "C107_int",
    "C107_huge_int",
    "C107_other",
    "C107_signalling"
   ],
   "note": ""
  },
  {
   "property": "C108",
   "status": "proved",
   "theorems": [
    "C108_sha256",
    "C108_ripemd160",
    "C108_functions",
    "C108_hash256",
    "C108_hash160",
    "C108_address",
    "C108_script_to_address"
   ],
   "note": ""
  },
  {
   "property": "C109",
   "status": "proved",
   "theorems": [
    "C109_other_elements",
    "C109_uints",
    "C109_one_element",
    "C109_trim_text",
    "C109_trim_ascii",
    "C109_trim_number",
    "C109_trim_list"
   ],
   "note": ""
  },
  {
   "property": "C110",
   "status": "proved",
   "theorems": [
    "C110_not_written",
    "C110_ints",
    "C110_contagious",
    "C110_unary",
    "C110_from_ints",
    "C110_negative_exponent",
    "C110_comparisons",
    "C110_nan",
    "C110_infinity",
    "C110_no_int",
    "C110_arithmetic",
    "C110_floordiv",
    "C110_zero_quotient",
    "C110_whole_numbers",
    "C110_sum_wrong",
    "C110_units",
    "C110_not_decimal"
   ],
   "note": ""
  },
  {
   "property": "C111",
   "status": "proved",
   "theorems": [
    "C111_own_setup",
    "C111_settled",
    "C111_published",
    "C111_old_or_new",
    "C111_finishes",
    "C111_instance_settled",
    "C111_mixed",
    "C111_default_race"
   ],
   "note": ""
  },
  {
   "property": "C112",
   "status": "proved",
   "theorems": [
    "C112_uninterrupted",
    "C112_atomic",
    "C112_append",
    "C112_torn_write",
    "C112_torn_read"
   ],
   "note": ""
  },
  {
   "property": "C113",
   "status": "proved",
   "theorems": [
    "C113_order_write",
    "C113_order_read",
    "C113_punctuation",
    "C113_not_ascii",
    "C113_write_any",
    "C113_read_any",
    "C113_padding",
    "C113_varint_order",
    "C113_varint_small",
    "C113_varint_marker_left",
    "C113_varbytes_marker_left",
    "C113_varbytes_order"
   ],
   "note": ""
  },
  {
   "property": "C114",
   "status": "proved",
   "theorems": [
    "C114_gcd",
    "C114_lame",
    "C114_default_limit",
    "C114_too_deep",
    "C114_division",
    "C114_division_256",
    "C114_tree",
    "C114_root",
    "C114_search",
    "C114_trim",
    "C114_trees_fit"
   ],
   "note": ""
  },
  {
   "property": "C115",
   "status": "proved",
   "theorems": [
    "C115_tree",
    "C115_root_stays",
    "C115_detects",
    "C115_hash_array",
    "C115_stale_set",
    "C115_one",
    "C115_root_writable",
    "C115_reachable"
   ],
   "note": ""
  },
  {
   "property": "C116",
   "status": "proved",
   "theorems": [
    "C116_sorted",
    "C116_all_tied",
    "C116_order_of_arrival_matters",
    "C116_canonical",
    "C116_mixed_sizes",
    "C116_min",
    "C116_max",
    "C116_min_max_refused",
    "C116_contract_met"
   ],
   "note": ""
  },
  {
   "property": "C117",
   "status": "proved",
   "theorems": [
    "C117_map",
    "C117_keys",
    "C117_mutated_key",
    "C117_two_equal_keys",
    "C117_deserialized_key"
   ],
   "note": ""
  },
  {
   "property": "C118",
   "status": "proved",
   "theorems": [
    "C118_accepted",
    "C118_one_reading",
    "C118_nothing_else",
    "C118_usage_error",
    "C118_help",
    "C118_one_option",
    "C118_address_and_back"
   ],
   "note": ""
  },
  {
   "property": "C119",
   "status": "proved",
   "theorems": [
    "C119_Equals",
    "C119_condition",
    "C119_FromBytes"
   ],
   "note": ""
  },
  {
   "property": "C120",
   "status": "proved",
   "theorems": [
    "C120_text_passphrase",
    "C120_export",
    "C120_import",
    "C120_address",
    "C120_bytes",
    "C120_signature",
    "C120_key"
   ],
   "note": ""
  },
  {
   "property": "C121",
   "status": "proved",
   "theorems": [
    "C121_bytes",
    "C121_others",
    "C121_script_hash",
    "C121_address_of_uint256",
    "C121_base256_ints",
    "C121_base256_ints_too",
    "C121_base256_others",
    "C121_base256_float",
    "C121_base256_infinity",
    "C121_base256_float_width"
   ],
   "note": ""
  },
  {
   "property": "C122",
   "status": "proved",
   "theorems": [
    "C122_big_left",
    "C122_float_arithmetic",
    "C122_too_large",
    "C122_divmod",
    "C122_comparisons",
    "C122_nan",
    "C122_infinity",
    "C122_not_the_same",
    "C122_negative_exponent",
    "C122_power",
    "C122_sum",
    "C122_sum_divides_as_int"
   ],
   "note": ""
  },
  {
   "property": "C123",
   "status": "proved",
   "theorems": [
    "C123_text",
    "C123_bytes",
    "C123_one_value",
    "C123_round_trip",
    "C123_float",
    "C123_decimal",
    "C123_others",
    "C123_class"
   ],
   "note": ""
  },
  {
   "property": "C124",
   "status": "proved",
   "theorems": [
    "C124_arithmetic",
    "C124_division",
    "C124_zero_divisor",
    "C124_exact",
    "C124_floor_differs",
    "C124_comparisons",
    "C124_units",
    "C124_negation",
    "C124_contagious",
    "C124_not_written",
    "C124_ints"
   ],
   "note": ""
  }
 ]
}