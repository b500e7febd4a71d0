C01_mux_multiplex: Closed under the global context
C01_rlp_multiplexer: Closed under the global context
C02_equal: Closed under the global context
C02_less_than: Closed under the global context
C03_array_equal: Closed under the global context
C03_array_equal_too_long: Closed under the global context
C04_sub_array: Closed under the global context
C04_sub_array_slice: Closed under the global context
C05_degenerate_window_ignores_shift: Closed under the global context
C05_shift_left: Closed under the global context
C05_shift_left_rejects: Closed under the global context
C06_shift_right: Closed under the global context
C07_array_prefix: Closed under the global context
C07_field_prefix: Closed under the global context
C07_validity_flag_boolean_refuted: Closed under the global context
C08_empty_list_field_rejected_refuted: Closed under the global context
C08_empty_list_field_wrong_length_accepted_refuted: Closed under the global context
C08_field_number: Closed under the global context
C08_field_number_sound: Closed under the global context
C08_fixed_field_length_not_enforced_refuted: Closed under the global context
C08_long_field_in_bounds_rejected_refuted: Closed under the global context
C08_rlp_array_check_complete: Closed under the global context
C08_rlp_array_check_sound: Closed under the global context
C08_rlp_array_check_sound_prefix: Closed under the global context
C09_empty_list_total_unverified_refuted: Closed under the global context
C09_rlp_nest_array_check_complete: Closed under the global context
C09_rlp_nest_array_check_sound: Closed under the global context
C09_zero_byte_reread_refuted: Closed under the global context
C10_check_leaf_complete: Closed under the global context
C10_check_leaf_score: Closed under the global context
C10_check_leaf_sound: Closed under the global context
C11_check_extension_complete: Closed under the global context
C11_check_extension_sound: Closed under the global context
C12_check_branch_complete: Closed under the global context
C12_check_branch_nibble: Closed under the global context
C12_check_branch_sound: Closed under the global context
C13_depth_one_leaf_unlinked_refuted: Closed under the global context
C13_first_fragment_start_unconstrained_refuted: Closed under the global context
C13_keccak_gadget_hash_ok: Closed under the global context
C13_mpt_inclusion_keccak_sound: Closed under the global context
C13_mpt_inclusion_sound: Closed under the global context
C13_padded_node_digest: Closed under the global context
C14_no_branch_termination_score: Closed under the global context
C14_path_rule_fixed: Closed under the global context
C14_path_rule_no_branch_refuted: Closed under the global context
C14_valid_proof_rejected_refuted: Closed under the global context
C14_wrong_root_accepted_refuted: Closed under the global context
C15_pad101_bytes_injective: Closed under the global context
C15_pad101_bytes_is_keccak_padding: Closed under the global context
C15_pad101_bytes_length: Closed under the global context
C16_digits_are_bytes: Closed under the global context
C16_digits_are_nibbles: Closed under the global context
C16_pad101_bits_accepts: Closed under the global context
C16_pad101_bits_correct: Closed under the global context
C16_pad101_bits_refuted: Closed under the global context
C16_pad_bits101_correct: Closed under the global context
C16_pad_bits101_refuted: Closed under the global context
C16_round_index_exact: Closed under the global context
C16_round_index_refuted: Closed under the global context
C16_round_of_padded_bytes: Closed under the global context
C17_permute_is_keccak_f: Closed under the global context
C17_permute_refuses_non_bits: Closed under the global context
C18_keccak256_bits_exact: Closed under the global context
C18_keccak256_bits_of_message: Closed under the global context
C18_keccak256_bits_one_block: Closed under the global context
C18_keccak256_bits_optimized_exact: Closed under the global context
C18_keccak256_words_exact: Closed under the global context
C18_keccak256_words_of_message: Closed under the global context
C18_keccak_nibbles_of_message: Closed under the global context
C18_later_blocks_do_not_matter: Closed under the global context
C19_bytes2bits: Closed under the global context
C19_bytes2uint64s: Closed under the global context
C19_nibbles_to_words: Closed under the global context
C19_uint64s2blocks: Closed under the global context
C20_sha256_history: Closed under the global context
C20_sha512_history: Closed under the global context
C20_split_independent: Closed under the global context
C21_non_byte_rejected: Closed under the global context
C21_sha256_fips: Closed under the global context
C21_sha512_fips: Closed under the global context
C22_add32: Closed under the global context
C22_add64: Closed under the global context
C22_add64_17_refuted: Closed under the global context
C23_merge_injective: Closed under the global context
C23_merge_inverts_split: Closed under the global context
C23_merge_value: Closed under the global context
C23_resplit_honest: Closed under the global context
C23_resplit_single_refuted: Closed under the global context
C23_split_honest: Closed under the global context
C23_split_unique_if_range_checked: Closed under the global context
C23_split_unique_refuted: Closed under the global context
C24_lrot_aligned: Closed under the global context
C24_lrot_honest: Closed under the global context
C24_lrot_sound_refuted: Closed under the global context
C24_lrot_too_far: Closed under the global context
C25_contains: Closed under the global context
C25_flip_by_groups: Closed under the global context
C25_flip_by_groups_involutive: Closed under the global context
C25_flip_by_groups_zero: Closed under the global context
C25_flip_reverses: Closed under the global context
C25_flip_sub: Closed under the global context
C25_flip_sub_panics: Closed under the global context
C25_partition_duplicate_keys_refuted: Closed under the global context
C25_partition_exact: Closed under the global context
C25_partition_groups: Closed under the global context
C25_reverse: Closed under the global context
C26_bigint: Closed under the global context
C26_decode_digits: Closed under the global context
C26_fixed_width: Closed under the global context
C26_malformed_truncates: Closed under the global context
C26_odd_length: Closed under the global context
C26_pad: Closed under the global context
C26_pad_too_long: Closed under the global context
C26_prefix_optional: Closed under the global context
C26_round_trip: Closed under the global context
C26_valid_tx_hash: Closed under the global context
C27_bls_inputs_injective: Closed under the global context
C27_bytes32_round_trip: Closed under the global context
C27_bytes32_too_long: Closed under the global context
C27_bytes32_wide_split_refuted: Closed under the global context
C27_decompose_bits: Closed under the global context
C27_mimc_pad: Closed under the global context
C27_pack_bits_injective: Closed under the global context
C27_pack_bits_range: Closed under the global context
C27_pack_bits_to_fr: Closed under the global context
C27_recompose_32: Closed under the global context
C27_recompose_32_panics: Closed under the global context
C27_recompose_6: Closed under the global context
C27_recompose_sdk: Closed under the global context
C28_bits_to_fr: Closed under the global context
C28_canonical_253: Closed under the global context
C28_canonical_refuted: Closed under the global context
C28_decode_byte: Closed under the global context
C29_aligned: Closed under the global context
C29_alignment_refuted: Closed under the global context
C29_index_is_floor: Closed under the global context
C29_unknown: Closed under the global context
C30_beacon_proof: Closed under the global context
C30_encode_abi: Closed under the global context
C30_encode_injective: Closed under the global context
C30_large_block_number: Closed under the global context
C30_large_block_number_refuted: Closed under the global context
C30_long_coordinate_panics: Closed under the global context
C31_always_hashed: Closed under the global context
C31_decimal_text: Closed under the global context
C31_hex_text: Closed under the global context
C31_id_collision: Closed under the global context
C31_kinds_collide_refuted: Closed under the global context
C31_log_limit: Closed under the global context
C31_negative_fee_refuted: Closed under the global context
C31_negative_value_refuted: Closed under the global context
C31_receipt_injective: Closed under the global context
C31_receipt_layout: Closed under the global context
C31_sizes: Closed under the global context
C31_storage_injective: Closed under the global context
C31_storage_layout: Closed under the global context
C31_tx_injective: Closed under the global context
C31_tx_layout: Closed under the global context
C32_eip1559: Closed under the global context
C32_eip155: Closed under the global context
C32_invalid_v_refuted: Closed under the global context
C32_oversized_signature: Closed under the global context
C32_payload_binding_1559: Closed under the global context
C32_payload_binding_155: Closed under the global context
C32_unprotected_rejected: Closed under the global context
C32_unsupported_type: Closed under the global context
C33_batch_string: Closed under the global context
C33_object_key_injective: Closed under the global context
C33_sub_proof_paths: Closed under the global context
C34_emulated_root: Closed under the global context
C34_fabric_root: Closed under the global context
C34_keccak_of_bits: Closed under the global context
C34_keccak_root: Closed under the global context
C34_keccak_root_panics: Closed under the global context
C34_path_binding: Closed under the global context
C34_path_binding_leaf_hash: Closed under the global context
C34_path_of_tree: Closed under the global context
C34_path_root_exact: Closed under the global context
C34_restore_binding: Closed under the global context
C34_restore_root_exact: Closed under the global context
C34_root_binding: Closed under the global context
C35_depth_is_ignored: Closed under the global context
C35_smt_binding: Closed under the global context
C35_smt_inclusion_exact: Closed under the global context
C36_hash_history_independent: Closed under the global context
C36_history: Closed under the global context
C36_second_sum: Closed under the global context
C36_sum_twice_refuted: Closed under the global context
C36_write_after_sum: Closed under the global context
C36_writes_accumulate: Closed under the global context
C37_index_check: Closed under the global context
C37_index_injective: Closed under the global context
C37_index_is_rlp_item: Closed under the global context
C37_index_out_of_range: Closed under the global context
C37_index_rlp: Closed under the global context
C38_abelian_group: Closed under the global context
C38_add: Closed under the global context
C38_assertions: Closed under the global context
C38_base_order: Closed under the global context
C38_double: Closed under the global context
C38_double_off_curve_refuted: Closed under the global context
C38_neg: Closed under the global context
C38_parameters: Closed under the global context
C39_double_base: Closed under the global context
C39_scalar_mul: Closed under the global context
C39_wide_field_rejected: Closed under the global context
C40_division_and_halving: Closed under the global context
C40_fp12_is_a_field: Closed under the global context
C40_fp12_operations: Closed under the global context
C40_fp12_sparse: Closed under the global context
C40_fp2_is_a_field: Closed under the global context
C40_fp2_operations: Closed under the global context
C40_fp6_is_a_field: Closed under the global context
C40_fp6_operations: Closed under the global context
C40_inverse: Closed under the global context
C40_inverse_satisfiable: Closed under the global context
C40_select_and_equality: Closed under the global context
C41_sgn0_ambiguous_refuted: Closed under the global context
C41_sgn0_exact: Closed under the global context
C41_sgn0_forced_partial: Closed under the global context
C41_sgn0_rfc_partial: Closed under the global context
C41_sgn0_zero_real_refuted: Closed under the global context
C42_bits2bytes2: Closed under the global context
C42_bits2bytes: Closed under the global context
C42_bits2bytes_array: Closed under the global context
C42_bits2bytes_panics: Closed under the global context
C42_bits2bytes_rejects: Closed under the global context
C42_bits2nibbles_refuted: Closed under the global context
C42_bits2uint128s: Closed under the global context
C43_chunk_index_found: Closed under the global context
C43_encode_header: Closed under the global context
C43_encode_injective: Closed under the global context
C43_encode_list: Closed under the global context
C43_field_check: Closed under the global context
C43_gen_headers: Closed under the global context
C43_generated_headers_encode: Closed under the global context
C43_long_extra_refuted: Closed under the global context
C43_mimc_bytes32: Closed under the global context
C43_new_hash: Closed under the global context
C43_new_hash_injective: Closed under the global context
C43_nil_base_fee_panics: Closed under the global context
C43_rejects: Closed under the global context
C43_uint_byte_len: Closed under the global context
C44_count_mismatch: Closed under the global context
C44_decode_encode_refuted: Closed under the global context
C44_encode: Closed under the global context
C44_history: Closed under the global context
C44_no_argument_alias_refuted: Closed under the global context
C44_not_pointer: Closed under the global context
C44_return_round_trip: Closed under the global context
C44_round_trip: Closed under the global context
C44_unknown: Closed under the global context
C45_absent_index_refuted: Closed under the global context
C45_compact: Closed under the global context
C45_compact_injective: Closed under the global context
C45_empty_block_panics: Closed under the global context
C45_leaf_split: Closed under the global context
C45_proof_of_stored: Closed under the global context
C45_root_mismatch: Closed under the global context
C45_writer: Closed under the global context
C46_mpt_storage_inclusion_sound: Closed under the global context
C46_storage_absence_not_rlp_refuted: Closed under the global context
C46_storage_absence_wrong_digit_refuted: Closed under the global context
C47_S_range_refuted: Closed under the global context
C47_challenge_reduced: Closed under the global context
C47_forgery_refuted: Closed under the global context
C47_isotropic_R_accepted: Closed under the global context
C47_key_binding: Closed under the global context
C47_point_encoding: Closed under the global context
C47_verify: Closed under the global context
C48_conjugate: Closed under the global context
C48_fp2_conjugate: Closed under the global context
C48_frobenius: Closed under the global context
C48_frobenius_cube_is_frobenius: Closed under the global context
C48_frobenius_cube_refuted: Closed under the global context
C48_frobenius_square: Closed under the global context
C49_compressed_squarings: Closed under the global context
C49_cyclotomic_square: Closed under the global context
C49_cyclotomic_square_outside: Closed under the global context
C49_easy_part_is_cyclotomic: Closed under the global context
C49_expt: Closed under the global context
C49_expt_half: Closed under the global context
C49_expt_rejects_one: Closed under the global context
C49_inverse_is_conjugate: Closed under the global context
C49_n_square: Closed under the global context
C50_deterministic: Closed under the global context
C50_final_exponentiation: Closed under the global context
C50_final_exponentiation_sound: Closed under the global context
C50_rejects_fp6: Closed under the global context
C50_rejects_zero_and_one: Closed under the global context
C50_result_has_order_r: Closed under the global context
C51_cancelling_pair_rejected: Closed under the global context
C51_errors: Closed under the global context
C51_miller_loop: Closed under the global context
C51_miller_value_unique: Closed under the global context
C51_pair: Closed under the global context
C52_hash_to_field: Closed under the global context
C52_hash_to_g2_inputs: Closed under the global context
C52_no_abort: Closed under the global context
C53_false_sound: Closed under the global context
C53_honest: Closed under the global context
C53_not_equal_exact: Closed under the global context
C53_true_unsound_refuted: Closed under the global context
C54_add_any_partial: Closed under the global context
C54_add_honest: Closed under the global context
C54_add_infinity_refuted: Closed under the global context
C54_affine_add: Closed under the global context
C54_affine_add_complete: Closed under the global context
C54_affine_double: Closed under the global context
C54_affine_double_and_add: Closed under the global context
C54_affine_double_complete: Closed under the global context
C54_affine_neg: Closed under the global context
C54_affine_sub: Closed under the global context
C54_double: Closed under the global context
C54_from_affine: Closed under the global context
C54_from_affine_zero_honest: Closed under the global context
C54_from_affine_zero_refuted: Closed under the global context
C54_group_law: Closed under the global context
C54_infinity_rejected: Closed under the global context
C54_neg: Closed under the global context
C54_no_order_two: Closed under the global context
C54_psi: Closed under the global context
C54_to_affine: Closed under the global context
C55_affine_mul: Closed under the global context
C55_affine_mul_v2: Closed under the global context
C55_affine_mul_v2_complete: Closed under the global context
C55_clear_affine_partial: Closed under the global context
C55_clear_honest: Closed under the global context
C55_jac_mul_any_partial: Closed under the global context
C55_jac_mul_honest: Closed under the global context
C55_jac_mul_subgroup: Closed under the global context
C56_exceptional_refuted: Closed under the global context
C56_map_any_partial: Closed under the global context
C56_map_honest: Closed under the global context
C56_map_off_curve_refuted: Closed under the global context
C56_map_rfc: Closed under the global context
C56_map_sign_refuted: Closed under the global context
C56_sign_refuted: Closed under the global context
C56_spec_unique: Closed under the global context
C56_sqrt_ratio_honest: Closed under the global context
C56_sqrt_ratio_refuted: Closed under the global context
C57_isogeny: Closed under the global context
C57_map_isogeny: Closed under the global context
C57_on_curve: Closed under the global context
C58_complete: Closed under the global context
C58_encode_affine_partial: Closed under the global context
C58_encode_jac: Closed under the global context
C58_hash_affine_partial: Closed under the global context
C58_hash_jac: Closed under the global context
C58_sign_refuted: Closed under the global context
C58_spec_unique: Closed under the global context
C59_hex64: Closed under the global context
C59_hex_to_decimal: Closed under the global context
C59_hex_to_decimal_empty: Closed under the global context
C59_hex_to_decimal_exact: Closed under the global context
C59_overlong_refuted: Closed under the global context
C60_header_rlp_all_fields: Closed under the global context
C60_header_rlp_complete: Closed under the global context
C60_header_rlp_some_fields: Closed under the global context
C60_header_rlp_sound: Closed under the global context
C60_unused_header_bytes_refuted: Closed under the global context
C60_variable_field_in_use: Closed under the global context
C61_block_header_accepted: Closed under the global context
C61_block_header_fields: Closed under the global context
C62_account_fields: Closed under the global context
C62_account_proof_sound: Closed under the global context
C63_empty_value_reads_next_byte_refuted: Closed under the global context
C63_slot_value: Closed under the global context
C63_storage_proof_sound: Closed under the global context
C63_truncated_at_extension_refuted: Closed under the global context
C63_zero_value: Closed under the global context
C64_address_storage_sound: Closed under the global context
C65_from_element_forced: Closed under the global context
C65_from_element_forced_refuted: Closed under the global context
C65_from_element_honest: Closed under the global context
C65_round_trip: Closed under the global context
C65_to_element_accepts: Closed under the global context
C65_to_element_injective_refuted: Closed under the global context
C65_to_element_sound: Closed under the global context
C65_to_elements_exact: Closed under the global context
C65_to_elements_radix_refuted: Closed under the global context
C65_to_elements_tail_refuted: Closed under the global context
C66_str2int: Closed under the global context
C66_str2int_malformed: Closed under the global context
C66_str2uint64: Closed under the global context
C66_str2uint64_negative: Closed under the global context
C66_str2uint64_refuted: Closed under the global context
C66_ts_milli: Closed under the global context
C66_ts_milli_refuted: Closed under the global context
C66_ts_milli_to_time: Closed under the global context
C66_ts_round_trip: Closed under the global context
C66_ts_sec_to_time: Closed under the global context
C67_app_vk_blocks: Closed under the global context
C67_app_vk_blocks_injective: Closed under the global context
C67_app_vk_blocks_long_refuted: Closed under the global context
C67_preimage_injective: Closed under the global context
C67_preimage_total: Closed under the global context
C67_uncovered_refuted: Closed under the global context
C68_copy_refuted: Closed under the global context
C68_reset: Closed under the global context
C68_sum: Closed under the global context
C68_sum_unchanged: Closed under the global context
C69_frame: Closed under the global context
C69_full_slice: Closed under the global context
C69_neighbour_refuted: Closed under the global context
C69_result: Closed under the global context
C69_where: Closed under the global context
C70_documented_bound: Closed under the global context
C70_i_square: Closed under the global context
C70_programs: Closed under the global context
C70_reachable_bound: Closed under the global context
C70_subtract_bound_refuted: Closed under the global context
C71_bytes: Closed under the global context
C71_bytes_equal: Closed under the global context
C71_canonical: Closed under the global context
C71_is_negative: Closed under the global context
C71_malleable_refuted: Closed under the global context
C71_round_trip: Closed under the global context
C71_set_bytes: Closed under the global context
C72_invert: Closed under the global context
C72_root_unique: Closed under the global context
C72_sqrt_ratio: Closed under the global context
C73_multiply_add: Closed under the global context
C73_programs: Closed under the global context
C74_bytes_unique: Closed under the global context
C74_canonical: Closed under the global context
C74_clamp_lost_refuted: Closed under the global context
C74_clamped: Closed under the global context
C74_equal: Closed under the global context
C74_round_trip: Closed under the global context
C74_uniform: Closed under the global context
C75_naf: Closed under the global context
C75_radix16: Closed under the global context
C75_scalars_qualify: Closed under the global context
C76_affine: Closed under the global context
C76_equal: Closed under the global context
C76_no_panic: Closed under the global context
C76_programs: Closed under the global context
C76_uninitialised: Closed under the global context
C76_well_defined: Closed under the global context
C77_bytes: Closed under the global context
C77_canonical: Closed under the global context
C77_encoding_unique: Closed under the global context
C77_round_trip: Closed under the global context
C77_set_bytes: Closed under the global context
C77_unique_refuted: Closed under the global context
C78_agree: Closed under the global context
C78_base_mult: Closed under the global context
C78_base_order: Closed under the global context
C78_double_mult: Closed under the global context
C78_homomorphism: Closed under the global context
C78_mult: Closed under the global context
C78_signature: Closed under the global context
C79_decodes: Closed under the global context
C79_sound: Closed under the global context
C79_type_byte_refuted: Closed under the global context
C80_mpt_inclusion_complete: Closed under the global context
C80_mpt_inclusion_keccak_complete: Closed under the global context
C81_account_proof_complete: Closed under the global context
C81_address_storage_complete: Closed under the global context
C81_storage_inclusion_complete: Closed under the global context
C81_storage_proof_complete: Closed under the global context
C82_absent_child_any_value: Closed under the global context
C82_absent_child_storage_any_value: Closed under the global context
C82_absent_ext_any_value: Closed under the global context
C82_absent_ext_storage_any_value: Closed under the global context
C82_absent_leaf_accepted: Closed under the global context
C82_absent_leaf_storage: Closed under the global context
C82_address_storage_from_slot: Closed under the global context
C82_address_storage_present_any_value: Closed under the global context
C82_present_key_any_value: Closed under the global context
C82_present_key_other_digit: Closed under the global context
