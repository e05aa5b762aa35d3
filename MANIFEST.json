{"claims": [
{"property": "C01", "status": "proved", "theorems": ["C01_mcl_is_power_of_2", "C01_mcl_next_pow_of_2", "C01_is_power_of_two", "C01_next_power_of_two", "C01_next_power_of_two_panics", "C01_min_max"], "note": ""},
{"property": "C02", "status": "proved", "theorems": ["C02_mcl_log_2", "C02_log_2_byte", "C02_log2_u64", "C02_log2_pow2", "C02_log2_pow2_large_refuted"], "note": "log2_pow2 for powers 2^32 and above is refuted by C02_log2_pow2_large_refuted, as the property statement says."},
{"property": "C03", "status": "proved", "theorems": ["C03_reverse_bit_order", "C03_mcl_agrees", "C03_degenerate_refuted", "C03_limited", "C03_limited_zero_refuted"], "note": "Length 0 and 1 behaviour of the two implementations is in C03_degenerate_refuted."},
{"property": "C04", "status": "proved", "theorems": ["C04_pow", "C04_pow_zkcrypto"], "note": ""},
{"property": "C05", "status": "proved", "theorems": ["C05_settings_new", "C05_expand_root_of_unity"], "note": ""},
{"property": "C06", "status": "proved", "theorems": ["C06_fft_fr_arguments", "C06_fft_g1_arguments"], "note": ""},
{"property": "C07", "status": "proved", "theorems": ["C07_fft_evaluates"], "note": ""},
{"property": "C08", "status": "proved", "theorems": ["C08_fft_inverse"], "note": ""},
{"property": "C09", "status": "proved", "theorems": ["C09_fast_is_slow"], "note": ""},
{"property": "C10", "status": "proved", "theorems": ["C10_fft_g1", "C10_fft_g1_in_exponent", "C10_fast_is_slow"], "note": ""},
{"property": "C11", "status": "proved", "theorems": ["C11_extension"], "note": ""},
{"property": "C12", "status": "proved", "theorems": ["C12_arguments"], "note": ""},
{"property": "C13", "status": "proved", "theorems": ["C13_eval", "C13_eval_constant_refuted"], "note": ""},
{"property": "C14", "status": "proved", "theorems": ["C14_mul_direct", "C14_product_is_pointwise"], "note": ""},
{"property": "C15", "status": "proved", "theorems": ["C15_mul_fft", "C15_mul_threshold_irrelevant", "C15_settings_mul_fft"], "note": ""},
{"property": "C16", "status": "proved", "theorems": ["C16_inverse"], "note": ""},
{"property": "C17", "status": "proved", "theorems": ["C17_normal_form", "C17_long_div"], "note": ""},
{"property": "C18", "status": "proved", "theorems": ["C18_fast_div", "C18_div_threshold_irrelevant", "C18_empty_dividend_refuted"], "note": ""},
{"property": "C19", "status": "proved", "theorems": ["C19_scale_unscale", "C19_scale_effect", "C19_table_scale_unscale", "C19_table_scale_effect"], "note": ""},
{"property": "C20", "status": "proved", "theorems": ["C20_small_vanishing_polynomial"], "note": ""},
{"property": "C21", "status": "proved", "theorems": ["C21_reduce_partials"], "note": ""},
{"property": "C22", "status": "proved", "theorems": ["C22_zero_poly_via_multiplication", "C22_covers_half", "C22_covers_small", "C22_arguments"], "note": ""},
{"property": "C23", "status": "proved", "theorems": ["C23_near_total_loss_refuted"], "note": ""},
{"property": "C24", "status": "proved", "theorems": ["C24_recovery", "C24_recovery_null", "C24_unique_codeword", "C24_beyond_table_refuted"], "note": ""},
{"property": "C25", "status": "proved", "theorems": ["C25_agrees_with_samples", "C25_agrees_with_samples_null"], "note": ""},
{"property": "C26", "status": "proved", "theorems": ["C26_complete_refuted"], "note": ""},
{"property": "C27", "status": "proved", "theorems": ["C27_null_value", "C27_null_refuted", "C27_null_zkcrypto"], "note": ""},
{"property": "C28", "status": "proved", "theorems": ["C28_commitment", "C28_trailing_zeros"], "note": ""},
{"property": "C29", "status": "proved", "theorems": ["C29_homomorphic"], "note": ""},
{"property": "C30", "status": "proved", "theorems": ["C30_trusted_setup"], "note": ""},
{"property": "C31", "status": "proved", "theorems": ["C31_single_proofs", "C31_unit_setup_refuted"], "note": ""},
{"property": "C32", "status": "proved", "theorems": ["C32_single_acceptance", "C32_binding"], "note": ""},
{"property": "C33", "status": "proved", "theorems": ["C33_multi_proofs", "C33_zero_offset"], "note": ""},
{"property": "C34", "status": "proved", "theorems": ["C34_multi_acceptance"], "note": ""},
{"property": "C35", "status": "proved", "theorems": ["C35_settings_arguments", "C35_compute_arguments", "C35_check_arguments"], "note": ""},
{"property": "C36", "status": "proved", "theorems": ["C36_batch_single"], "note": ""},
{"property": "C37", "status": "proved", "theorems": ["C37_batch_multi"], "note": ""},
{"property": "C38", "status": "proved", "theorems": ["C38_single_constructor", "C38_multi_constructor", "C38_batch_errors", "C38_long_polynomial_refuted", "C38_long_polynomial_multi_refuted", "C38_short_polynomial_refuted", "C38_short_polynomial_multi_refuted"], "note": ""},
{"property": "C39", "status": "proved", "theorems": ["C39_toeplitz_pipeline", "C39_toeplitz_matrix"], "note": ""},
{"property": "C40", "status": "proved", "theorems": ["C40_fft_fr", "C40_fft_g1", "C40_das", "C40_mul_fft", "C40_zero_poly", "C40_recover", "C40_recover_optional"], "note": "Parallel functions are fork-join tasks over shared memory with every interleaving of single reads and writes; proved to stop under every schedule with the sequential result. Other backends' rayon paths and the OnceCell initialisation race are not modelled."},
{"property": "C41", "status": "proved", "theorems": ["C41_representation", "C41_operations"], "note": ""},
{"property": "C42", "status": "proved", "theorems": ["C42_encode", "C42_decode", "C42_wide", "C42_words", "C42_limbs"], "note": ""},
{"property": "C43", "status": "proved", "theorems": ["C43_invert", "C43_powers", "C43_division"], "note": ""},
{"property": "C44", "status": "proved", "theorems": ["C44_modulus_prime", "C44_roots_primitive", "C44_tables_agree"], "note": ""},
{"property": "C45", "status": "proved", "theorems": ["C45_scalar_multiplication", "C45_scalar_bytes"], "note": ""},
{"property": "C46", "status": "proved", "theorems": ["C46_new_after_any_history", "C46_custom_after_any_history", "C46_concurrent_new", "C46_concurrent_custom", "C46_concurrent_refuted", "C46_concurrent_mixed", "C46_concurrent_last_refuted"], "note": ""},
{"property": "C47", "status": "proved", "theorems": ["C47_codeword_check_refuted"], "note": ""},
{"property": "C48", "status": "proved", "theorems": ["C48_sqrt"], "note": ""},
{"property": "C49", "status": "proved", "theorems": ["C49_shift", "C49_reduce"], "note": ""},
{"property": "C50", "status": "proved", "theorems": ["C50_trait_settings", "C50_scale_truncated", "C50_rejects_large_refuted"], "note": ""},
{"property": "C51", "status": "proved", "theorems": ["C51_fft_evaluates", "C51_fft_inverse", "C51_fft_inverse_largest_refuted", "C51_fast_is_slow"], "note": ""},
{"property": "C52", "status": "proved", "theorems": ["C52_fft_g1", "C52_empty_refuted"], "note": ""},
{"property": "C53", "status": "proved", "theorems": ["C53_scale_independent", "C53_scale_independent_mcl_new", "C53_scale_independent_mcl_trait_refuted"], "note": ""},
{"property": "C54", "status": "proved", "theorems": ["C54_das_extension", "C54_trait_error_refuted"], "note": ""},
{"property": "C55", "status": "proved", "theorems": ["C55_pow", "C55_pow_zero_refuted"], "note": ""},
{"property": "C56", "status": "proved", "theorems": ["C56_small_scales_agree", "C56_transforms_agree", "C56_large_scales_refuted"], "note": ""},
{"property": "C57", "status": "proved", "theorems": ["C57_mul_direct", "C57_mul_direct_agrees", "C57_mul_fft", "C57_mul_threshold_irrelevant", "C57_narrow_settings", "C57_long_product_refuted", "C57_zero_length_refuted"], "note": ""},
{"property": "C58", "status": "proved", "theorems": ["C58_inverse"], "note": ""},
{"property": "C59", "status": "proved", "theorems": ["C59_long_division", "C59_long_division_agrees", "C59_fast_div", "C59_div"], "note": ""},
{"property": "C60", "status": "proved", "theorems": ["C60_small_vanishing_polynomial", "C60_reduce_partials", "C60_zero_poly", "C60_arguments", "C60_near_total_loss_refuted", "C60_agrees"], "note": ""},
{"property": "C61", "status": "proved", "theorems": ["C61_shift", "C61_recovery", "C61_unique_codeword", "C61_complete_refuted", "C61_total_loss_refuted", "C61_lengths", "C61_parallel_tables", "C61_unwrap_default"], "note": ""},
{"property": "C62", "status": "proved", "theorems": ["C62_words", "C62_roundtrip", "C62_from_u64", "C62_from_scalar", "C62_scalar_order_refuted", "C62_null_refuted"], "note": ""},
{"property": "C63", "status": "proved", "theorems": ["C63_trusted_setup", "C63_settings", "C63_commitment", "C63_single_proofs", "C63_single_acceptance", "C63_binding", "C63_overlong_single_refuted", "C63_multi_compute", "C63_multi_proofs", "C63_multi_acceptance", "C63_multi_arguments", "C63_missing_values_refuted"], "note": ""},
{"property": "C64", "status": "proved", "theorems": ["C64_batch_single", "C64_batch_multi", "C64_single_constructor", "C64_multi_constructor", "C64_batch_errors", "C64_long_polynomial_refuted", "C64_long_polynomial_multi_refuted", "C64_short_polynomial_refuted", "C64_short_polynomial_multi_refuted"], "note": ""},
{"property": "C65", "status": "proved", "theorems": ["C65_zk_fft_fr_slow", "C65_zk_fft_g1_slow", "C65_zk_settings_new", "C65_zk_fft_fr", "C65_zk_fft_g1", "C65_zk_fft_g1_arguments", "C65_zk_extension", "C65_zk_extension_arguments", "C65_zk_from_scale_refuted", "C65_zk_new_fft_settings_refuted"], "note": ""},
{"property": "C66", "status": "proved", "theorems": ["C66_zk_pad", "C66_zk_division", "C66_zk_mul", "C66_zk_mul_empty", "C66_zk_inverse", "C66_zk_inverse_length_zero_refuted", "C66_zk_long_div", "C66_zk_fast_div", "C66_zk_div", "C66_zk_div_zero_refuted", "C66_zk_zero_lead_refuted"], "note": ""},
{"property": "C67", "status": "proved", "theorems": ["C67_zk_eval", "C67_zk_eval_constant_refuted", "C67_zk_pow", "C67_zk_scale_unscale", "C67_zk_from_coefficients", "C67_zk_degree", "C67_zk_ruffini", "C67_zk_ruffini_refuted"], "note": ""},
{"property": "C68", "status": "proved", "theorems": ["C68_zk_small_vanishing_polynomial", "C68_zk_reduce_partials", "C68_zk_zero_poly", "C68_zk_zero_poly_arguments", "C68_zk_near_total_loss_refuted"], "note": ""},
{"property": "C69", "status": "proved", "theorems": ["C69_zk_recovery", "C69_zk_unique_codeword", "C69_zk_agrees_with_samples", "C69_zk_complete_refuted", "C69_zk_lengths_refuted"], "note": ""},
{"property": "C70", "status": "proved", "theorems": ["C70_msm", "C70_msm_limbs"], "note": ""},
{"property": "C71", "status": "proved", "theorems": ["C71_trusted_setup", "C71_commitment", "C71_compute", "C71_single_proofs", "C71_single_acceptance", "C71_binding", "C71_multi_proofs", "C71_multi_acceptance", "C71_multi_errors"], "note": ""},
{"property": "C72", "status": "proved", "theorems": ["C72_batch_single", "C72_batch_multi", "C72_single_constructor", "C72_multi_constructor", "C72_sizes", "C72_longer_polynomial", "C72_chunk_panics", "C72_shorter_polynomial_refuted"], "note": ""},
{"property": "C73", "status": "proved", "theorems": ["C73_ark_library_root", "C73_ark_settings_new", "C73_ark_same_as_blst", "C73_ark_fft_fr", "C73_ark_fft_fr_fast", "C73_ark_fft_fr_slow", "C73_ark_fft_g1", "C73_ark_fft_g1_arguments", "C73_ark_fft_g1_slow", "C73_ark_fft_g1_slow_single_refuted", "C73_ark_extension", "C73_ark_extension_arguments"], "note": ""},
{"property": "C74", "status": "proved", "theorems": ["C74_ark_mul", "C74_ark_mul_settings", "C74_ark_mul_limits", "C74_ark_mul_zero_refuted", "C74_ark_mul_length_zero_refuted", "C74_ark_inverse", "C74_ark_inverse_length_refuted", "C74_ark_long_div", "C74_ark_fast_div", "C74_ark_fast_div_zero_refuted", "C74_ark_div", "C74_ark_div_zero_refuted"], "note": ""},
{"property": "C75", "status": "proved", "theorems": ["C75_ark_scale_unscale", "C75_ark_eval"], "note": ""},
{"property": "C76", "status": "proved", "theorems": ["C76_ark_small_vanishing_polynomial", "C76_ark_reduce_partials", "C76_ark_zero_poly", "C76_ark_zero_poly_arguments", "C76_ark_near_total_loss_refuted"], "note": ""},
{"property": "C77", "status": "proved", "theorems": ["C77_ark_recovery", "C77_ark_unique_codeword", "C77_ark_agrees_with_samples", "C77_ark_complete_refuted", "C77_ark_lengths_refuted"], "note": ""},
{"property": "C78", "status": "proved", "theorems": ["C78_ark_trusted_setup", "C78_ark_settings", "C78_ark_seed", "C78_ark_secret_used_refuted", "C78_ark_clone_refuted"], "note": ""},
{"property": "C79", "status": "proved", "theorems": ["C79_ark_commitment", "C79_ark_compute", "C79_ark_single_proofs", "C79_ark_acceptance", "C79_ark_binding"], "note": ""},
{"property": "C80", "status": "proved", "theorems": ["C80_ark_compute", "C80_ark_compute_zero", "C80_ark_compute_none", "C80_ark_multi_proofs", "C80_ark_acceptance", "C80_ark_arguments"], "note": ""},
{"property": "C81", "status": "proved", "theorems": ["C81_ark_single_constructor", "C81_ark_multi_constructor", "C81_ark_batch_single", "C81_ark_batch_multi", "C81_ark_sizes", "C81_ark_longer_polynomial", "C81_ark_chunk_panics", "C81_ark_shorter_polynomial_refuted"], "note": ""},
{"property": "C82", "status": "proved", "theorems": ["C82_ark_words", "C82_ark_roundtrip", "C82_ark_equality", "C82_ark_from_u64", "C82_ark_null_refuted", "C82_ark_division", "C82_ark_group_helpers"], "note": ""},
{"property": "C83", "status": "proved", "theorems": ["C83_prime", "C83_one_to_one", "C83_ring", "C83_constants", "C83_equality"], "note": ""},
{"property": "C84", "status": "proved", "theorems": ["C84_encode", "C84_decode", "C84_roundtrip", "C84_lexicographic", "C84_from_wide", "C84_from_wide_documented_refuted"], "note": ""},
{"property": "C85", "status": "proved", "theorems": ["C85_inverse", "C85_power", "C85_sqrt"], "note": ""},
{"property": "C86", "status": "proved", "theorems": ["C86_group", "C86_points", "C86_ops", "C86_sum", "C86_batch_normalize", "C86_on_curve", "C86_on_curve_refuted"], "note": ""},
{"property": "C87", "status": "proved", "theorems": ["C87_mul", "C87_small", "C87_overflow", "C87_overflow_refuted", "C87_outside_refuted"], "note": ""},
{"property": "C88", "status": "proved", "theorems": ["C88_generator", "C88_generated", "C88_test", "C88_module"], "note": ""},
{"property": "C89", "status": "proved", "theorems": ["C89_write", "C89_distinct", "C89_read_compressed", "C89_read_uncompressed", "C89_read_compressed_unchecked", "C89_read_uncompressed_unchecked", "C89_round_trip", "C89_projective"], "note": ""},
{"property": "C90", "status": "proved", "theorems": ["C90_tower", "C90_one_to_one", "C90_arith", "C90_from_base", "C90_inverse", "C90_conjugate", "C90_power", "C90_power_is"], "note": ""},
{"property": "C91", "status": "proved", "theorems": ["C91_sqrt", "C91_sign"], "note": ""},
{"property": "C92", "status": "proved", "theorems": ["C92_arith6", "C92_from6", "C92_inverse6", "C92_sparse6", "C92_arith12", "C92_from12", "C92_inverse12", "C92_sparse12"], "note": ""},
{"property": "C93", "status": "proved", "theorems": ["C93_frobenius", "C93_conjugate12"], "note": ""},
{"property": "C94", "status": "proved", "theorems": ["C94_group", "C94_points", "C94_ops", "C94_sum", "C94_batch_normalize", "C94_on_curve", "C94_on_curve_refuted"], "note": ""},
{"property": "C95", "status": "proved", "theorems": ["C95_mul", "C95_generator", "C95_test", "C95_module", "C95_cyclic"], "note": ""},
{"property": "C96", "status": "proved", "theorems": ["C96_code", "C96_endomorphism", "C96_relation", "C96_subgroup"], "note": ""},
{"property": "C97", "status": "proved", "theorems": ["C97_write", "C97_distinct", "C97_read_compressed", "C97_read_uncompressed", "C97_read_compressed_unchecked", "C97_read_uncompressed_unchecked", "C97_round_trip", "C97_projective"], "note": ""},
{"property": "C98", "status": "proved", "theorems": ["C98_power", "C98_product"], "note": ""},
{"property": "C99", "status": "proved", "theorems": ["C99_ops", "C99_identity", "C99_mul", "C99_module", "C99_sum", "C99_random_refuted"], "note": ""},
{"property": "C100", "status": "proved", "theorems": ["C100_code", "C100_prepared", "C100_member", "C100_identity", "C100_additive", "C100_bilinear"], "note": ""},
{"property": "C101", "status": "proved", "theorems": ["C101_verify"], "note": ""},
{"property": "C102", "status": "proved", "theorems": ["C102_generator", "C102_nondegenerate", "C102_compare", "C102_verify", "C102_instance"], "note": ""},
{"property": "C103", "status": "proved", "theorems": ["C103_g1", "C103_g2"], "note": ""},
{"property": "C104", "status": "proved", "theorems": ["C104_setup", "C104_setup_refuted", "C104_commit", "C104_single", "C104_single_proofs", "C104_multi", "C104_multi_proofs", "C104_multi_answers", "C104_compute", "C104_carry", "C104_value_refuted", "C104_cofactor_refuted"], "note": ""},
{"property": "C105", "status": "proved", "theorems": ["C105_scalar", "C105_poly_to", "C105_poly_from_refuted", "C105_poly_from_wrong_refuted", "C105_base_field", "C105_base_field_refuted", "C105_point_to_refuted", "C105_point_from_refuted", "C105_point_roundtrip"], "note": ""},
{"property": "C106", "status": "proved", "theorems": ["C106_zk_fft", "C106_zk_das", "C106_zk_mul_fft", "C106_zk_zero_poly", "C106_zk_msm", "C106_ark_fft_g1", "C106_ark_das", "C106_ark_mul_fft", "C106_mcl_fft", "C106_mcl_fft_g1", "C106_mcl_das", "C106_mcl_mul_fft", "C106_mcl_zero_poly", "C106_mcl_recover"], "note": ""},
{"property": "C107", "status": "proved", "theorems": ["C107_zk_recover", "C107_ark_recover", "C107_scale", "C107_unscale", "C107_session", "C107_scale_empty_refuted", "C107_race_refuted", "C107_poisoned_refuted", "C107_poisoned_recover_refuted"], "note": ""},
{"property": "C108", "status": "proved", "theorems": ["C108_g1_count", "C108_g1_clear", "C108_g1_cleared", "C108_g1_fibres", "C108_g2_count", "C108_g2_clear", "C108_g2_cleared", "C108_g2_fibres"], "note": ""},
{"property": "C109", "status": "proved", "theorems": ["C109_scalar", "C109_fp", "C109_fp2", "C109_fp6", "C109_fp12", "C109_even_scalar", "C109_even_fp", "C109_g1_sound", "C109_g2_sound", "C109_g1_complete", "C109_g2_complete", "C109_total", "C109_g1_reach", "C109_g2_reach", "C109_zeros_refuted", "C109_rand_uneven", "C109_g1_rand", "C109_g1_rand_identity", "C109_g1_rand_refuted"], "note": ""},
{"property": "C110", "status": "proved", "theorems": ["C110_blst_constants", "C110_ark_constants", "C110_mcl_constants", "C110_ckzg_constants", "C110_mcl_from_words", "C110_mcl_from_words_high", "C110_mcl_from_words_refuted", "C110_ark_conversions", "C110_blst_methods", "C110_mcl_methods", "C110_ckzg_methods", "C110_ark_g1_methods", "C110_ark_g2_methods", "C110_is_inf", "C110_mul", "C110_receiver", "C110_ark_receiver_g1_refuted", "C110_ark_receiver_g2_refuted"], "note": ""},
{"property": "C111", "status": "proved", "theorems": ["C111_transform", "C111_round_trip", "C111_refusals", "C111_slow", "C111_checked", "C111_carrying_root", "C111_small"], "note": ""},
{"property": "C112", "status": "proved", "theorems": ["C112_single", "C112_single_accepted", "C112_multi", "C112_multi_accepted", "C112_single_refusals", "C112_multi_refusals", "C112_size_refusals", "C112_single_checked", "C112_multi_checked", "C112_single_carrying", "C112_multi_carrying", "C112_panic_refuted", "C112_unchecked_refuted"], "note": ""},
{"property": "C113", "status": "proved", "theorems": ["C113_safe", "C113_no_leak", "C113_read_back", "C113_fresh", "C113_tables", "C113_operations", "C113_refusals", "C113_clone_refuted", "C113_clone_shares_refuted", "C113_default_refuted", "C113_bounds_refuted", "C113_dangling_refuted", "C113_chain_refuted", "C113_empty_slice_refuted", "C113_short_vectors_refuted", "C113_default_settings_refuted", "C113_scale_refuted", "C113_failed_constructor_refuted"], "note": ""},
{"property": "C114", "status": "proved", "theorems": ["C114_mcl_make_data", "C114_make_data", "C114_make_data_refuted", "C114_trusted_setup", "C114_product_size", "C114_empty_product_refuted", "C114_transforms", "C114_check_multi", "C114_bound_transforms", "C114_fixed_size_refuted", "C114_multi_length_refuted", "C114_null_sample_refuted"], "note": ""},
{"property": "C115", "status": "proved", "theorems": ["C115_blst", "C115_ckzg", "C115_zkcrypto", "C115_arkworks", "C115_mcl", "C115_portable", "C115_wide_refuted", "C115_sub_refuted", "C115_inverse_refuted", "C115_eucl_inverse_refuted", "C115_zero_refuted", "C115_pow_zero_refuted", "C115_null_refuted", "C115_null_made_refuted", "C115_null_ckzg", "C115_rand"], "note": ""},
{"property": "C116", "status": "proved", "theorems": ["C116_settings", "C116_fft", "C116_fft_values", "C116_fft_g1", "C116_das", "C116_mul", "C116_inverse", "C116_div", "C116_zero_poly", "C116_recover", "C116_commit", "C116_single_proof", "C116_multi_proof", "C116_single_check", "C116_multi_check", "C116_fk20_single", "C116_fk20_multi", "C116_inverse_refuted", "C116_mul_empty_refuted", "C116_mul_zero_refuted", "C116_div_zero_refuted", "C116_missing_refuted", "C116_complete_refuted", "C116_zero_proof_refuted", "C116_commit_long_refuted", "C116_origin_refuted", "C116_secret_refuted"], "note": ""},
{"property": "C117", "status": "proved", "theorems": ["C117_generator", "C117_root", "C117_bits", "C117_repr", "C117_odd", "C117_sum", "C117_default"], "note": ""},
{"property": "C118", "status": "proved", "theorems": ["C118_scalar", "C118_base", "C118_extensions", "C118_tells_apart", "C118_unreduced_refuted"], "note": ""},
{"property": "C119", "status": "proved", "theorems": ["C119_made", "C119_transforms", "C119_transforms_g1", "C119_extension", "C119_commit", "C119_check", "C119_mcl_proof_refuted", "C119_fk20_new", "C119_fk20_single", "C119_fk20_multi", "C119_accessors"], "note": ""},
{"property": "C120", "status": "proved", "theorems": ["C120_new", "C120_two_ways", "C120_new2", "C120_commit", "C120_verify_pairing", "C120_check", "C120_opening", "C120_overlong_refuted", "C120_from_i32", "C120_default"], "note": ""},
{"property": "C121", "status": "proved", "theorems": ["C121_digits", "C121_sum", "C121_agree", "C121_doublings"], "note": ""}
]}
