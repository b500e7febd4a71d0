{
 "claims": [
  {
   "property": "C01",
   "status": "proved",
   "theorems": [
    "C01_mux_multiplex",
    "C01_rlp_multiplexer"
   ],
   "note": ""
  },
  {
   "property": "C02",
   "status": "proved",
   "theorems": [
    "C02_equal",
    "C02_less_than"
   ],
   "note": ""
  },
  {
   "property": "C03",
   "status": "proved",
   "theorems": [
    "C03_array_equal",
    "C03_array_equal_too_long"
   ],
   "note": ""
  },
  {
   "property": "C04",
   "status": "proved",
   "theorems": [
    "C04_sub_array",
    "C04_sub_array_slice"
   ],
   "note": ""
  },
  {
   "property": "C05",
   "status": "proved",
   "theorems": [
    "C05_shift_left",
    "C05_shift_left_rejects",
    "C05_degenerate_window_ignores_shift"
   ],
   "note": "Rotation proved for every in-window shift, rejection for out-of-window shifts; a degenerate window (min = max) provably ignores the requested amount (C05_degenerate_window_ignores_shift), which is a gap in the code's enforcement."
  },
  {
   "property": "C06",
   "status": "proved",
   "theorems": [
    "C06_shift_right"
   ],
   "note": ""
  },
  {
   "property": "C07",
   "status": "proved",
   "theorems": [
    "C07_array_prefix",
    "C07_field_prefix",
    "C07_validity_flag_boolean_refuted"
   ],
   "note": "Agreement with the specification is proved for all bytes; the boolean-validity part of the claim is false of the code (flag is 2 for 0xc0) and refuted."
  },
  {
   "property": "C08",
   "status": "proved",
   "theorems": [
    "C08_rlp_array_check_sound",
    "C08_rlp_array_check_sound_prefix",
    "C08_rlp_array_check_complete",
    "C08_field_number",
    "C08_field_number_sound",
    "C08_empty_list_field_rejected_refuted",
    "C08_empty_list_field_wrong_length_accepted_refuted",
    "C08_fixed_field_length_not_enforced_refuted",
    "C08_long_field_in_bounds_rejected_refuted"
   ],
   "note": "Soundness and completeness with their exact side conditions; the unrestricted claim is refuted in each excluded case."
  },
  {
   "property": "C09",
   "status": "proved",
   "theorems": [
    "C09_rlp_nest_array_check_sound",
    "C09_empty_list_total_unverified_refuted",
    "C09_zero_byte_reread_refuted",
    "C09_rlp_nest_array_check_complete"
   ],
   "note": ""
  },
  {
   "property": "C10",
   "status": "proved",
   "theorems": [
    "C10_check_leaf_sound",
    "C10_check_leaf_score",
    "C10_check_leaf_complete"
   ],
   "note": ""
  },
  {
   "property": "C11",
   "status": "proved",
   "theorems": [
    "C11_check_extension_sound",
    "C11_check_extension_complete"
   ],
   "note": ""
  },
  {
   "property": "C12",
   "status": "proved",
   "theorems": [
    "C12_check_branch_sound",
    "C12_check_branch_nibble",
    "C12_check_branch_complete"
   ],
   "note": ""
  },
  {
   "property": "C13",
   "status": "proved",
   "theorems": [
    "C13_mpt_inclusion_sound",
    "C13_first_fragment_start_unconstrained_refuted",
    "C13_depth_one_leaf_unlinked_refuted",
    "C13_keccak_gadget_hash_ok",
    "C13_mpt_inclusion_keccak_sound",
    "C13_padded_node_digest"
   ],
   "note": "Depth 1 and keyFragmentStarts[0] <> 0 are excluded by hypothesis/by the starting digit because the code accepts forged proofs there (two refutations). Also instantiated with the repository's Keccak256AsNibbles gadget (Props_MptKeccak.v)."
  },
  {
   "property": "C14",
   "status": "proved",
   "theorems": [
    "C14_no_branch_termination_score",
    "C14_valid_proof_rejected_refuted",
    "C14_path_rule_fixed",
    "C14_path_rule_no_branch_refuted",
    "C14_wrong_root_accepted_refuted"
   ],
   "note": "The intended claim (same rule as the fixed variant) is false; the theorems give the exact score rule, the exact path rule and the refutations."
  },
  {
   "property": "C15",
   "status": "proved",
   "theorems": [
    "C15_pad101_bytes_is_keccak_padding",
    "C15_pad101_bytes_length",
    "C15_pad101_bytes_injective"
   ],
   "note": ""
  },
  {
   "property": "C16",
   "status": "proved",
   "theorems": [
    "C16_round_of_padded_bytes",
    "C16_round_index_exact",
    "C16_round_index_refuted",
    "C16_pad101_bits_accepts",
    "C16_pad101_bits_correct",
    "C16_pad101_bits_refuted",
    "C16_digits_are_bytes",
    "C16_digits_are_nibbles",
    "C16_pad_bits101_correct",
    "C16_pad_bits101_refuted"
   ],
   "note": "Agreement proved for every length not 135 modulo 136; for every length that is 135 modulo 136 disagreement is proved (the *_refuted theorems), so the full agreement claim is false of the code."
  },
  {
   "property": "C17",
   "status": "proved",
   "theorems": [
    "C17_permute_is_keccak_f",
    "C17_permute_refuses_non_bits"
   ],
   "note": ""
  },
  {
   "property": "C18",
   "status": "proved",
   "theorems": [
    "C18_keccak256_bits_exact",
    "C18_keccak256_bits_one_block",
    "C18_keccak256_bits_optimized_exact",
    "C18_later_blocks_do_not_matter",
    "C18_keccak256_words_exact",
    "C18_keccak256_bits_of_message",
    "C18_keccak256_words_of_message",
    "C18_keccak_nibbles_of_message"
   ],
   "note": ""
  },
  {
   "property": "C19",
   "status": "proved",
   "theorems": [
    "C19_bytes2bits",
    "C19_bytes2uint64s",
    "C19_uint64s2blocks",
    "C19_nibbles_to_words"
   ],
   "note": ""
  },
  {
   "property": "C20",
   "status": "proved",
   "theorems": [
    "C20_sha256_history",
    "C20_sha512_history",
    "C20_split_independent"
   ],
   "note": ""
  },
  {
   "property": "C21",
   "status": "proved",
   "theorems": [
    "C21_sha256_fips",
    "C21_sha512_fips",
    "C21_non_byte_rejected"
   ],
   "note": ""
  },
  {
   "property": "C22",
   "status": "proved",
   "theorems": [
    "C22_add32",
    "C22_add64",
    "C22_add64_17_refuted"
   ],
   "note": ""
  },
  {
   "property": "C23",
   "status": "proved",
   "theorems": [
    "C23_split_honest",
    "C23_merge_inverts_split",
    "C23_split_unique_if_range_checked",
    "C23_split_unique_refuted",
    "C23_merge_value",
    "C23_merge_injective",
    "C23_resplit_honest",
    "C23_resplit_single_refuted"
   ],
   "note": ""
  },
  {
   "property": "C24",
   "status": "proved",
   "theorems": [
    "C24_lrot_honest",
    "C24_lrot_aligned",
    "C24_lrot_sound_refuted",
    "C24_lrot_too_far"
   ],
   "note": ""
  },
  {
   "property": "C25",
   "status": "proved",
   "theorems": [
    "C25_flip_reverses",
    "C25_reverse",
    "C25_flip_sub",
    "C25_flip_sub_panics",
    "C25_flip_by_groups",
    "C25_flip_by_groups_involutive",
    "C25_flip_by_groups_zero",
    "C25_partition_groups",
    "C25_partition_exact",
    "C25_partition_duplicate_keys_refuted",
    "C25_contains"
   ],
   "note": ""
  },
  {
   "property": "C26",
   "status": "proved",
   "theorems": [
    "C26_round_trip",
    "C26_odd_length",
    "C26_prefix_optional",
    "C26_decode_digits",
    "C26_malformed_truncates",
    "C26_valid_tx_hash",
    "C26_fixed_width",
    "C26_pad",
    "C26_pad_too_long",
    "C26_bigint"
   ],
   "note": ""
  },
  {
   "property": "C27",
   "status": "proved",
   "theorems": [
    "C27_decompose_bits",
    "C27_pack_bits_injective",
    "C27_pack_bits_range",
    "C27_bytes32_round_trip",
    "C27_bytes32_wide_split_refuted",
    "C27_bytes32_too_long",
    "C27_recompose_32",
    "C27_recompose_32_panics",
    "C27_recompose_6",
    "C27_recompose_sdk",
    "C27_mimc_pad",
    "C27_bls_inputs_injective",
    "C27_pack_bits_to_fr"
   ],
   "note": ""
  },
  {
   "property": "C28",
   "status": "proved",
   "theorems": [
    "C28_bits_to_fr",
    "C28_canonical_253",
    "C28_canonical_refuted",
    "C28_decode_byte"
   ],
   "note": ""
  },
  {
   "property": "C29",
   "status": "proved",
   "theorems": [
    "C29_index_is_floor",
    "C29_aligned",
    "C29_unknown",
    "C29_alignment_refuted"
   ],
   "note": ""
  },
  {
   "property": "C30",
   "status": "proved",
   "theorems": [
    "C30_encode_abi",
    "C30_long_coordinate_panics",
    "C30_encode_injective",
    "C30_large_block_number",
    "C30_large_block_number_refuted",
    "C30_beacon_proof"
   ],
   "note": ""
  },
  {
   "property": "C31",
   "status": "proved",
   "theorems": [
    "C31_receipt_layout",
    "C31_storage_layout",
    "C31_tx_layout",
    "C31_sizes",
    "C31_receipt_injective",
    "C31_storage_injective",
    "C31_tx_injective",
    "C31_log_limit",
    "C31_always_hashed",
    "C31_id_collision",
    "C31_kinds_collide_refuted",
    "C31_negative_fee_refuted",
    "C31_negative_value_refuted",
    "C31_decimal_text",
    "C31_hex_text"
   ],
   "note": ""
  },
  {
   "property": "C32",
   "status": "proved",
   "theorems": [
    "C32_eip155",
    "C32_eip1559",
    "C32_unsupported_type",
    "C32_oversized_signature",
    "C32_unprotected_rejected",
    "C32_payload_binding_1559",
    "C32_payload_binding_155",
    "C32_invalid_v_refuted"
   ],
   "note": ""
  },
  {
   "property": "C33",
   "status": "proved",
   "theorems": [
    "C33_object_key_injective",
    "C33_sub_proof_paths",
    "C33_batch_string"
   ],
   "note": ""
  },
  {
   "property": "C34",
   "status": "proved",
   "theorems": [
    "C34_path_root_exact",
    "C34_path_binding",
    "C34_path_binding_leaf_hash",
    "C34_path_of_tree",
    "C34_restore_root_exact",
    "C34_emulated_root",
    "C34_fabric_root",
    "C34_root_binding",
    "C34_restore_binding",
    "C34_keccak_of_bits",
    "C34_keccak_root",
    "C34_keccak_root_panics"
   ],
   "note": ""
  },
  {
   "property": "C35",
   "status": "proved",
   "theorems": [
    "C35_smt_inclusion_exact",
    "C35_smt_binding",
    "C35_depth_is_ignored"
   ],
   "note": ""
  },
  {
   "property": "C36",
   "status": "proved",
   "theorems": [
    "C36_history",
    "C36_hash_history_independent",
    "C36_writes_accumulate",
    "C36_second_sum",
    "C36_sum_twice_refuted",
    "C36_write_after_sum"
   ],
   "note": ""
  },
  {
   "property": "C37",
   "status": "proved",
   "theorems": [
    "C37_index_rlp",
    "C37_index_out_of_range",
    "C37_index_check",
    "C37_index_injective",
    "C37_index_is_rlp_item"
   ],
   "note": ""
  },
  {
   "property": "C38",
   "status": "proved",
   "theorems": [
    "C38_parameters",
    "C38_abelian_group",
    "C38_add",
    "C38_double",
    "C38_neg",
    "C38_assertions",
    "C38_double_off_curve_refuted",
    "C38_base_order"
   ],
   "note": ""
  },
  {
   "property": "C39",
   "status": "proved",
   "theorems": [
    "C39_scalar_mul",
    "C39_double_base",
    "C39_wide_field_rejected"
   ],
   "note": ""
  },
  {
   "property": "C40",
   "status": "proved",
   "theorems": [
    "C40_fp2_operations",
    "C40_fp6_operations",
    "C40_fp12_operations",
    "C40_fp12_sparse",
    "C40_select_and_equality",
    "C40_fp2_is_a_field",
    "C40_fp6_is_a_field",
    "C40_fp12_is_a_field",
    "C40_inverse",
    "C40_inverse_satisfiable",
    "C40_division_and_halving"
   ],
   "note": ""
  },
  {
   "property": "C41",
   "status": "partial",
   "theorems": [
    "C41_sgn0_exact",
    "C41_sgn0_rfc_partial",
    "C41_sgn0_forced_partial",
    "C41_sgn0_zero_real_refuted",
    "C41_sgn0_ambiguous_refuted"
   ],
   "note": "The unrestricted claim is false of the code: exact result, the cases in which it is the RFC's sign, and refutations for the others."
  },
  {
   "property": "C42",
   "status": "proved",
   "theorems": [
    "C42_bits2bytes",
    "C42_bits2bytes2",
    "C42_bits2bytes_array",
    "C42_bits2bytes_panics",
    "C42_bits2bytes_rejects",
    "C42_bits2uint128s",
    "C42_bits2nibbles_refuted"
   ],
   "note": ""
  },
  {
   "property": "C43",
   "status": "proved",
   "theorems": [
    "C43_uint_byte_len",
    "C43_field_check",
    "C43_encode_header",
    "C43_encode_list",
    "C43_rejects",
    "C43_nil_base_fee_panics",
    "C43_long_extra_refuted",
    "C43_encode_injective",
    "C43_gen_headers",
    "C43_generated_headers_encode",
    "C43_new_hash",
    "C43_new_hash_injective",
    "C43_mimc_bytes32",
    "C43_chunk_index_found"
   ],
   "note": ""
  },
  {
   "property": "C44",
   "status": "proved",
   "theorems": [
    "C44_encode",
    "C44_history",
    "C44_unknown",
    "C44_count_mismatch",
    "C44_round_trip",
    "C44_return_round_trip",
    "C44_not_pointer",
    "C44_decode_encode_refuted",
    "C44_no_argument_alias_refuted"
   ],
   "note": ""
  },
  {
   "property": "C45",
   "status": "proved",
   "theorems": [
    "C45_leaf_split",
    "C45_proof_of_stored",
    "C45_root_mismatch",
    "C45_empty_block_panics",
    "C45_absent_index_refuted",
    "C45_writer",
    "C45_compact",
    "C45_compact_injective"
   ],
   "note": ""
  },
  {
   "property": "C46",
   "status": "proved",
   "theorems": [
    "C46_mpt_storage_inclusion_sound",
    "C46_storage_absence_wrong_digit_refuted",
    "C46_storage_absence_not_rlp_refuted"
   ],
   "note": "The storage variant's last node is a leaf, a branch without the child at digit depth-1, or passes foreign_ext: all that the extension test establishes (first item a path other than the whole remaining key; RLP validity ignored). Refuted: C46_storage_absence_not_rlp_refuted, C46_storage_absence_wrong_digit_refuted, and C63_truncated_at_extension_refuted."
  },
  {
   "property": "C47",
   "status": "proved",
   "theorems": [
    "C47_point_encoding",
    "C47_verify",
    "C47_challenge_reduced",
    "C47_key_binding",
    "C47_S_range_refuted",
    "C47_isotropic_R_accepted",
    "C47_forgery_refuted"
   ],
   "note": "Exact acceptance condition for on-curve A and R; the unforgeability a user expects is refuted by a concrete accepted forgery with an off-curve R (C47_forgery_refuted) and by S malleability (C47_S_range_refuted). Emulated-field Div/ToBits/Reduce hints are modelled as relations (DESIGN.md)."
  },
  {
   "property": "C48",
   "status": "proved",
   "theorems": [
    "C48_frobenius",
    "C48_frobenius_square",
    "C48_conjugate",
    "C48_fp2_conjugate",
    "C48_frobenius_cube_is_frobenius",
    "C48_frobenius_cube_refuted"
   ],
   "note": ""
  },
  {
   "property": "C49",
   "status": "proved",
   "theorems": [
    "C49_easy_part_is_cyclotomic",
    "C49_inverse_is_conjugate",
    "C49_cyclotomic_square",
    "C49_cyclotomic_square_outside",
    "C49_compressed_squarings",
    "C49_n_square",
    "C49_expt_half",
    "C49_expt",
    "C49_expt_rejects_one"
   ],
   "note": ""
  },
  {
   "property": "C50",
   "status": "proved",
   "theorems": [
    "C50_final_exponentiation_sound",
    "C50_result_has_order_r",
    "C50_final_exponentiation",
    "C50_rejects_fp6",
    "C50_rejects_zero_and_one",
    "C50_deterministic"
   ],
   "note": ""
  },
  {
   "property": "C51",
   "status": "proved",
   "theorems": [
    "C51_miller_loop",
    "C51_errors",
    "C51_pair",
    "C51_miller_value_unique",
    "C51_cancelling_pair_rejected"
   ],
   "note": ""
  },
  {
   "property": "C52",
   "status": "proved",
   "theorems": [
    "C52_hash_to_field",
    "C52_hash_to_g2_inputs",
    "C52_no_abort"
   ],
   "note": ""
  },
  {
   "property": "C53",
   "status": "proved",
   "theorems": [
    "C53_honest",
    "C53_false_sound",
    "C53_true_unsound_refuted",
    "C53_not_equal_exact"
   ],
   "note": "Exact with honest hints; exact description of what other hints can do, with refutations."
  },
  {
   "property": "C54",
   "status": "partial",
   "theorems": [
    "C54_group_law",
    "C54_double",
    "C54_neg",
    "C54_psi",
    "C54_add_honest",
    "C54_add_any_partial",
    "C54_add_infinity_refuted",
    "C54_to_affine",
    "C54_infinity_rejected",
    "C54_from_affine",
    "C54_from_affine_zero_honest",
    "C54_from_affine_zero_refuted",
    "C54_affine_add",
    "C54_affine_sub",
    "C54_affine_double",
    "C54_affine_double_and_add",
    "C54_affine_neg",
    "C54_affine_add_complete",
    "C54_no_order_two",
    "C54_affine_double_complete"
   ],
   "note": "C54_add_any_partial needs finite distinct operands; the excluded cases are refuted (C54_add_infinity_refuted)."
  },
  {
   "property": "C55",
   "status": "partial",
   "theorems": [
    "C55_jac_mul_honest",
    "C55_jac_mul_any_partial",
    "C55_jac_mul_subgroup",
    "C55_affine_mul_v2",
    "C55_affine_mul",
    "C55_affine_mul_v2_complete",
    "C55_clear_honest",
    "C55_clear_affine_partial"
   ],
   "note": "C55_jac_mul_any_partial needs the absence of small order (proved for all of G2 in C55_jac_mul_subgroup); C55_clear_affine_partial is soundness only."
  },
  {
   "property": "C56",
   "status": "partial",
   "theorems": [
    "C56_spec_unique",
    "C56_sqrt_ratio_honest",
    "C56_sqrt_ratio_refuted",
    "C56_map_honest",
    "C56_map_rfc",
    "C56_exceptional_refuted",
    "C56_sign_refuted",
    "C56_map_any_partial",
    "C56_map_off_curve_refuted",
    "C56_map_sign_refuted"
   ],
   "note": "Exact with honest hints; C56_map_any_partial bounds what other hints can do, and the claims that fail are refuted on concrete inputs."
  },
  {
   "property": "C57",
   "status": "proved",
   "theorems": [
    "C57_isogeny",
    "C57_on_curve",
    "C57_map_isogeny"
   ],
   "note": ""
  },
  {
   "property": "C58",
   "status": "partial",
   "theorems": [
    "C58_spec_unique",
    "C58_encode_jac",
    "C58_hash_jac",
    "C58_complete",
    "C58_encode_affine_partial",
    "C58_hash_affine_partial",
    "C58_sign_refuted"
   ],
   "note": "Jacobian variants exact with honest hints on ordinary field elements; affine variants: soundness only (_partial). C58_example checks the hypotheses on a computed message except that the resulting point is not infinity."
  },
  {
   "property": "C59",
   "status": "proved",
   "theorems": [
    "C59_hex_to_decimal",
    "C59_hex_to_decimal_empty",
    "C59_hex_to_decimal_exact",
    "C59_overlong_refuted",
    "C59_hex64"
   ],
   "note": ""
  },
  {
   "property": "C60",
   "status": "proved",
   "theorems": [
    "C60_header_rlp_sound",
    "C60_header_rlp_all_fields",
    "C60_header_rlp_some_fields",
    "C60_header_rlp_complete",
    "C60_variable_field_in_use",
    "C60_unused_header_bytes_refuted"
   ],
   "note": "params_ok bounds the table; fixed_lengths_hold: entries with min = max have that length (not checked by the gadget)."
  },
  {
   "property": "C61",
   "status": "proved",
   "theorems": [
    "C61_block_header_fields",
    "C61_block_header_accepted"
   ],
   "note": "Output is the C60 verdict. The digest gadget is the variable hash with hash_ok (Props_MptKeccak.v proves it of the repository's gadget)."
  },
  {
   "property": "C62",
   "status": "proved",
   "theorems": [
    "C62_account_proof_sound",
    "C62_account_fields"
   ],
   "note": "Restrictions (depth >= 2, start digit) as in C13, where the code is refuted without them."
  },
  {
   "property": "C63",
   "status": "proved",
   "theorems": [
    "C63_storage_proof_sound",
    "C63_slot_value",
    "C63_empty_value_reads_next_byte_refuted",
    "C63_zero_value",
    "C63_truncated_at_extension_refuted"
   ],
   "note": "Two refutations in Props_EthCases.v; path restrictions as in C13/C46."
  },
  {
   "property": "C64",
   "status": "proved",
   "theorems": [
    "C64_address_storage_sound"
   ],
   "note": "The combined Output ignores the header RLP verdict; the header's form is a hypothesis, as its digest is a public input."
  },
  {
   "property": "C65",
   "status": "proved",
   "theorems": [
    "C65_to_element_sound",
    "C65_to_element_accepts",
    "C65_to_element_injective_refuted",
    "C65_from_element_honest",
    "C65_round_trip",
    "C65_from_element_forced",
    "C65_from_element_forced_refuted",
    "C65_to_elements_exact",
    "C65_to_elements_tail_refuted",
    "C65_to_elements_radix_refuted"
   ],
   "note": "gnark's NewElement range checks are trusted (ElementModel.v). Total limb size equal to the native field's bit length is excluded: the merged value may wrap."
  },
  {
   "property": "C66",
   "status": "proved",
   "theorems": [
    "C66_str2uint64",
    "C66_str2uint64_negative",
    "C66_str2int",
    "C66_str2int_malformed",
    "C66_str2uint64_refuted",
    "C66_ts_milli",
    "C66_ts_milli_to_time",
    "C66_ts_round_trip",
    "C66_ts_sec_to_time",
    "C66_ts_milli_refuted"
   ],
   "note": "strconv.Atoi (fast path, ParseInt, ParseUint) is modelled from the standard library's source; int is 64 bits."
  },
  {
   "property": "C67",
   "status": "proved",
   "theorems": [
    "C67_preimage_total",
    "C67_preimage_injective",
    "C67_uncovered_refuted",
    "C67_app_vk_blocks",
    "C67_app_vk_blocks_injective",
    "C67_app_vk_blocks_long_refuted"
   ],
   "note": "The MiMC hashes themselves are gnark-crypto's and trusted; the coset shift is one number in gnark, here any list of numbers of 48 bytes."
  },
  {
   "property": "C68",
   "status": "proved",
   "theorems": [
    "C68_sum",
    "C68_reset",
    "C68_sum_unchanged",
    "C68_copy_refuted"
   ],
   "note": "poseidon.Hash is a parameter."
  },
  {
   "property": "C69",
   "status": "proved",
   "theorems": [
    "C69_result",
    "C69_frame",
    "C69_where",
    "C69_full_slice",
    "C69_neighbour_refuted"
   ],
   "note": "Go's append is modelled for any growth policy."
  },
  {
   "property": "C70",
   "status": "proved",
   "theorems": [
    "C70_i_square",
    "C70_programs",
    "C70_documented_bound",
    "C70_subtract_bound_refuted",
    "C70_reachable_bound"
   ],
   "note": "The generic Go code; the amd64 and arm64 assembly variants are not modelled. bits.Mul64 and bits.Add64 have their documented meaning."
  },
  {
   "property": "C71",
   "status": "proved",
   "theorems": [
    "C71_bytes",
    "C71_bytes_equal",
    "C71_set_bytes",
    "C71_round_trip",
    "C71_canonical",
    "C71_is_negative",
    "C71_malleable_refuted"
   ],
   "note": ""
  },
  {
   "property": "C72",
   "status": "proved",
   "theorems": [
    "C72_invert",
    "C72_sqrt_ratio",
    "C72_root_unique"
   ],
   "note": "Primality of p is proved from a certificate."
  },
  {
   "property": "C73",
   "status": "proved",
   "theorems": [
    "C73_programs",
    "C73_multiply_add"
   ],
   "note": "The straight-line code is represented by the list of its carry and fold steps, read off the source mechanically; a verified interval analysis shows that nothing overflows."
  },
  {
   "property": "C74",
   "status": "proved",
   "theorems": [
    "C74_uniform",
    "C74_canonical",
    "C74_bytes_unique",
    "C74_round_trip",
    "C74_equal",
    "C74_clamped",
    "C74_clamp_lost_refuted"
   ],
   "note": ""
  },
  {
   "property": "C75",
   "status": "proved",
   "theorems": [
    "C75_naf",
    "C75_radix16",
    "C75_scalars_qualify"
   ],
   "note": ""
  },
  {
   "property": "C76",
   "status": "proved",
   "theorems": [
    "C76_programs",
    "C76_well_defined",
    "C76_equal",
    "C76_affine",
    "C76_uninitialised",
    "C76_no_panic"
   ],
   "note": "Coordinates are Elements of FeModel.v; the group is that of EdSpec.v."
  },
  {
   "property": "C77",
   "status": "proved",
   "theorems": [
    "C77_bytes",
    "C77_encoding_unique",
    "C77_set_bytes",
    "C77_round_trip",
    "C77_canonical",
    "C77_unique_refuted"
   ],
   "note": "Uniqueness of accepted strings is refuted (C77_unique_refuted), as the source comment says."
  },
  {
   "property": "C78",
   "status": "proved",
   "theorems": [
    "C78_mult",
    "C78_base_mult",
    "C78_double_mult",
    "C78_agree",
    "C78_base_order",
    "C78_homomorphism",
    "C78_signature"
   ],
   "note": "Tables are built in the model as in tables.go; sync.Once is taken as: built before first use."
  },
  {
   "property": "C79",
   "status": "proved",
   "theorems": [
    "C79_decodes",
    "C79_sound",
    "C79_type_byte_refuted"
   ],
   "note": "Integers with the non-canonical encoding 00 are excluded from the completeness direction (they are rejected or misread, see C09). Prints are not modelled."
  },
  {
   "property": "C80",
   "status": "proved",
   "theorems": [
    "C80_mpt_inclusion_complete",
    "C80_mpt_inclusion_keccak_complete"
   ],
   "note": "Node-level completeness is C10-C12; the converse direction (soundness) is C13. Trie paths are specified in MptTrie.v at byte level with the RLP encoder of RlpEnc.v."
  },
  {
   "property": "C81",
   "status": "proved",
   "theorems": [
    "C81_storage_inclusion_complete",
    "C81_storage_proof_complete",
    "C81_account_proof_complete",
    "C81_address_storage_complete"
   ],
   "note": "Soundness of the same gadgets is C62-C64. Paths, honest inputs and size conditions as in C80."
  },
  {
   "property": "C82",
   "status": "proved",
   "theorems": [
    "C82_absent_child_any_value",
    "C82_absent_child_storage_any_value",
    "C82_absent_leaf_accepted",
    "C82_absent_leaf_storage",
    "C82_absent_ext_any_value",
    "C82_absent_ext_storage_any_value",
    "C82_present_key_any_value",
    "C82_present_key_other_digit",
    "C82_address_storage_from_slot",
    "C82_address_storage_present_any_value"
   ],
   "note": "The parts about empty children and extensions are weaknesses of the code proved for all inputs (C82_present_key_any_value, C82_present_key_other_digit: a present slot below an extension can be proved to hold any value): a consumer must not trust es_slotValue unless the presented last node is known to be the key's leaf. Soundness side: C13, C63."
  }
 ]
}