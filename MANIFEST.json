{
 "claims": [
  {
   "property": "C01",
   "status": "proved",
   "theorems": [
    "C01_gemm_offset_product",
    "C01_Gemm_standard",
    "C01_reference_kernel"
   ],
   "note": "Generic (portable) packing, output and unpacking code; any kernel meeting the kernel contract, which is proved for the reference kernel; wrap-around and trapping arithmetic. Sizes and addresses are unbounded integers in the model."
  },
  {
   "property": "C02",
   "status": "proved",
   "theorems": [
    "C02_writes_only_result"
   ],
   "note": "Operands live in memories of their own that the call cannot write; the result memory changes only at entries of the result view."
  },
  {
   "property": "C03",
   "status": "proved",
   "theorems": [
    "C03_no_out_of_bounds_access"
   ],
   "note": "Reads of operands, offset and pipeline vectors, and scratch buffers of exactly the reserved sizes."
  },
  {
   "property": "C04",
   "status": "proved",
   "theorems": [
    "C04_exact_without_overflow",
    "C04_large_offsets_refuted"
   ],
   "note": "Trap mode: no overflow under int32_safe (which counts the depth rounded up to the register size). Wrap mode: exact modulo 2^32 by C01. Large offsets refuted."
  },
  {
   "property": "C05",
   "status": "proved",
   "theorems": [
    "C05_independent_of_tuning_and_history"
   ],
   "note": "Any two kernels, tunings, thread settings, scratch contents and schedules."
  },
  {
   "property": "C06",
   "status": "proved",
   "theorems": [
    "C06_multithreaded_equals_single"
   ],
   "note": "Sequentially consistent interleavings of the single stores of the tasks of each phase; how the pool runs the tasks is C11-C13."
  },
  {
   "property": "C07",
   "status": "proved",
   "theorems": [
    "C07_row_split",
    "C07_tasks_race_free",
    "C07_large_split_refuted"
   ],
   "note": "Needs rows*tasks < 2^31; beyond that the split is refuted."
  },
  {
   "property": "C08",
   "status": "proved",
   "theorems": [
    "C08_thread_count",
    "C08_negative_setting_refuted",
    "C08_huge_product_refuted"
   ],
   "note": "Hardware concurrency is a positive number given by the environment; negative settings and products of 2^47 and more are refuted."
  },
  {
   "property": "C09",
   "status": "proved",
   "theorems": [
    "C09_transposition_transparent",
    "C09_transposed_pipeline"
   ],
   "note": "All stages and positions."
  },
  {
   "property": "C10",
   "status": "proved",
   "theorems": [
    "C10_degenerate_no_op",
    "C10_empty_sum_refuted"
   ],
   "note": "With a refutation of \"depth 0 gives the pipeline of the empty sum\"."
  },
  {
   "property": "C11",
   "status": "proved",
   "theorems": [
    "C11_performed",
    "C11_execute_returns_when_done",
    "C11_each_once"
   ],
   "note": "Sequentially consistent interleavings of single shared-memory operations, any spurious wake-ups, any task type. Spinning and sleeping in BlockingCounter::Wait are modelled by the step not being enabled."
  },
  {
   "property": "C12",
   "status": "proved",
   "theorems": [
    "C12_no_deadlock",
    "C12_bounded",
    "C12_fair_schedules_terminate",
    "C12_gemm_on_pool_terminates"
   ],
   "note": "No deadlock, an explicit bound on the number of steps, termination of every fair schedule; with the GEMM phases as tasks."
  },
  {
   "property": "C13",
   "status": "proved",
   "theorems": [
    "C13_no_failure",
    "C13_no_race",
    "C13_shutdown",
    "C13_gemm_on_used_pool"
   ],
   "note": "Any sequence of batches followed by destruction; no assertion or abort reachable; no race on task_ and state_; GEMM on a pool with a history."
  },
  {
   "property": "C14",
   "status": "proved",
   "theorems": [
    "C14_disjoint_aligned",
    "C14_session",
    "C14_gemm_buffers",
    "C14_size_wrap_refuted"
   ],
   "note": "Requests of at most 2^60 bytes each; beyond that n * sizeof(T) can wrap (refuted theorem). The system allocation is an oracle returning an aligned block or nullptr."
  },
  {
   "property": "C15",
   "status": "proved",
   "theorems": [
    "C15_stale_rejected",
    "C15_wrong_type_rejected",
    "C15_only_live_resolve",
    "C15_lifetimes",
    "C15_six_blocks_refused",
    "C15_storage_never_shrinks",
    "C15_repeated_pattern",
    "C15_generation_wrap_refuted"
   ],
   "note": "Fewer than 2^64 Decommits; after exactly 2^64 a stale handle resolves again (refuted theorem)."
  },
  {
   "property": "C16",
   "status": "proved",
   "theorems": [
    "C16_block_params"
   ],
   "note": "Sizes are unbounded integers in the model (C69 is about int overflow); the float factor is an oracle that may return anything defined."
  },
  {
   "property": "C17",
   "status": "proved",
   "theorems": [
    "C17_pack_lhs",
    "C17_pack_rhs"
   ],
   "note": "Generic packing path of pack.h, uint8 inputs, uint8 or int8 kernels."
  },
  {
   "property": "C18",
   "status": "proved",
   "theorems": [
    "C18_cell_layout_bijection"
   ],
   "note": "All three cell orders."
  },
  {
   "property": "C19",
   "status": "proved",
   "theorems": [
    "C19_stored_exactly_once"
   ],
   "note": "Whole call, any schedule."
  },
  {
   "property": "C20",
   "status": "proved",
   "theorems": [
    "C20_saturating_rounding_doubling_high_mul"
   ],
   "note": "int16 and int32, all inputs."
  },
  {
   "property": "C21",
   "status": "proved",
   "theorems": [
    "C21_rounding_divide_by_pot",
    "C21_int16_large_exponent_refuted"
   ],
   "note": "int16 and int32, all inputs, exponents 0..w-1. int16 exponents 16..31, which the asserts accept, are refuted."
  },
  {
   "property": "C22",
   "status": "proved",
   "theorems": [
    "C22_saturating_rounding_multiply_by_pot",
    "C22_rescale",
    "C22_shift_by_31_refuted"
   ],
   "note": "All exponents except 31 on int32, which is undefined behaviour (refuted theorem)."
  },
  {
   "property": "C23",
   "status": "proved",
   "theorems": [
    "C23_rounding_half_sum",
    "C23_equals_vector_halving_add_refuted"
   ],
   "note": "Scalar path; the equality with the round-up halving add of NEON/SSE is refuted on negative odd sums."
  },
  {
   "property": "C24",
   "status": "proved",
   "theorems": [
    "C24_saturating_add",
    "C24_add_saturating_if_16bit"
   ],
   "note": "int8 and int16 saturating add, and the 16-bit-only saturating add."
  },
  {
   "property": "C25",
   "status": "proved",
   "theorems": [
    "C25_masks",
    "C25_select_using_mask"
   ],
   "note": "Scalar masks and select, all inputs."
  },
  {
   "property": "C26",
   "status": "proved",
   "theorems": [
    "C26_fixed_point_mul",
    "C26_exact_mul_by_pot",
    "C26_constant_pot",
    "C26_one"
   ],
   "note": "Stated in rational numbers."
  },
  {
   "property": "C27",
   "status": "proved",
   "theorems": [
    "C27_exp_on_negative_values",
    "C27_mode_independent"
   ],
   "note": "16 and 32 bits, every number of integer bits for which ConstantPOT<-2> exists (w-3), both overflow modes."
  },
  {
   "property": "C28",
   "status": "proved",
   "theorems": [
    "C28_tanh",
    "C28_logistic",
    "C28_mode_independent",
    "C28_minimum_overflow_refuted",
    "C28_tanh_sign_refuted"
   ],
   "note": "tanh up to w-4 integer bits, logistic up to w-3. The minimum is refuted (negation overflows), and so is sign preservation of 16-bit tanh."
  },
  {
   "property": "C29",
   "status": "proved",
   "theorems": [
    "C29_one_over_one_plus_x",
    "C29_one_minus_x_over_one_plus_x",
    "C29_negative_result_refuted"
   ],
   "note": "With an accuracy bound of 14 (28) units in the last place; (1-x)/(1+x) >= 0 is refuted at x = One."
  },
  {
   "property": "C30",
   "status": "proved",
   "theorems": [
    "C30_quantize_down",
    "C30_quantize_down_PC",
    "C30_documented_formula",
    "C30_documented_ties_refuted"
   ],
   "note": "Scalar and per-channel stage; the documented formula is refuted on negative ties."
  },
  {
   "property": "C31",
   "status": "proved",
   "theorems": [
    "C31_by_fixedpoint",
    "C31_scale_by_exponent",
    "C31_nonpositive_exponent",
    "C31_documented_ties_refuted"
   ],
   "note": "Exponents -31..30, no-overflow conditions on the offset addition and the left shift stated; x = multiplier = INT_MIN excluded."
  },
  {
   "property": "C32",
   "status": "proved",
   "theorems": [
    "C32_bias",
    "C32_clamp",
    "C32_casts"
   ],
   "note": "All vector shapes, any tile and position."
  },
  {
   "property": "C33",
   "status": "proved",
   "theorems": [
    "C33_entrywise",
    "C33_composition",
    "C33_execute"
   ],
   "note": "Any pipeline, tile shape and position, generic register code."
  },
  {
   "property": "C34",
   "status": "proved",
   "theorems": [
    "C34_standard_pipeline",
    "C34_wrapping_not_monotone_refuted"
   ],
   "note": "Range holds even when the arithmetic wraps; monotonicity needs the product to fit (refuted otherwise)."
  },
  {
   "property": "C35",
   "status": "proved",
   "theorems": [
    "C35_layout",
    "C35_exact_formula",
    "C35_depth_setting_ignored"
   ],
   "note": "Without the Meta fast path; result buffer distinct from the input buffers."
  },
  {
   "property": "C36",
   "status": "proved",
   "theorems": [
    "C36_float_result",
    "C36_scratch_large_enough",
    "C36_depth_zero_refuted",
    "C36_size_truncation_refuted"
   ],
   "note": "Depth at least 1 and scratch size within int32; both limits have a refuted theorem. Float is binary32 (SpecFloat)."
  },
  {
   "property": "C37",
   "status": "proved",
   "theorems": [
    "C37_serializable",
    "C37_history_independent",
    "C37_no_deadlock",
    "C37_all_calls_complete"
   ],
   "note": "Any number of threads; also no deadlock and termination. The mutex is modelled as taken and released atomically."
  },
  {
   "property": "C38",
   "status": "proved",
   "theorems": [
    "C38_PrepareTasks_partition",
    "C38_PrepareTasks_defined",
    "C38_PrepareTasks_overflow_refuted",
    "C38_cache_chunks_partition",
    "C38_split_dim_partition",
    "C38_scratch_areas_disjoint",
    "C38_multi_thread_pack_rhs",
    "C38_multi_thread_pack_lhs"
   ],
   "note": "All sizes and thread counts; the int overflow of m*n*k in the size test is refuted. Includes MultiThreadGemm for both executors in every interleaving."
  },
  {
   "property": "C39",
   "status": "proved",
   "theorems": [
    "C39_layout",
    "C39_fast_equals_general",
    "C39_operand_vector_refuted",
    "C39_result_vector_refuted",
    "C39_rounding_refuted",
    "C39_shift_zero_refuted"
   ],
   "note": "Under the stated contiguity of single rows/columns, which is shown to be exactly what is missing from the test (two refuted theorems); also refuted near 2^31 (rounding constant wraps) and for shift 0."
  },
  {
   "property": "C40",
   "status": "proved",
   "theorems": [
    "C40_size_rounding",
    "C40_ceil_quotient",
    "C40_round_up_to_power_of_two",
    "C40_power_of_two_64bit_refuted",
    "C40_round_down_negative_refuted"
   ],
   "note": "On the 32-bit/64-bit domain; two refuted theorems mark where the helpers fail."
  },
  {
   "property": "C41",
   "status": "proved",
   "theorems": [
    "C41_two_products",
    "C41_int8_32_kernel",
    "C41_int8_64_kernel",
    "C41_gemm_lhs_nonzero",
    "C41_int8_32_any_pair_refuted",
    "C41_int8_64_any_pair_refuted"
   ],
   "note": "The kernels in kernel_neon.h, executed instruction by instruction, and a whole GEMM on them. The restriction is shown necessary by refuted theorems."
  },
  {
   "property": "C42",
   "status": "proved",
   "theorems": [
    "C42_exact_multiplier",
    "C42_output_stage",
    "C42_small_multiplier_refuted",
    "C42_below_one_refuted"
   ],
   "note": "Exact for floats; the output stage from 2^-32 on. Refuted: shifts above 31, and that the multiplier of matrices with entries in [-1,1] is below one. Floats are SpecFloat binary32/binary64 without excess precision."
  },
  {
   "property": "C43",
   "status": "proved",
   "theorems": [
    "C43_find_min_max",
    "C43_parameters",
    "C43_tiny_ranges_undefined",
    "C43_every_range_refuted",
    "C43_zero_product_refuted",
    "C43_zero_exact",
    "C43_infinite_scale_refuted",
    "C43_quantize_total",
    "C43_error_bound",
    "C43_half_scale_refuted",
    "C43_codes_round_trip",
    "C43_monotone"
   ],
   "note": "Ranges from 2^-118 to 2^127 for the error bound. Refuted: tiny ranges (NaN converted to an integer), infinite scale, an error of at most exactly half a scale."
  },
  {
   "property": "C44",
   "status": "proved",
   "theorems": [
    "C44_sample_exact",
    "C44_scopes",
    "C44_no_abort",
    "C44_deep_nesting_refuted",
    "C44_update_refuted"
   ],
   "note": "Sequentially consistent interleavings. 31 nested labels abort, and Update on an outer object changes the innermost label (refuted theorems)."
  },
  {
   "property": "C45",
   "status": "proved",
   "theorems": [
    "C45_lines",
    "C45_weights_conserved",
    "C45_sorted",
    "C45_view_exists"
   ],
   "note": "Fewer than 2^64 samples; std::sort is any sorting permutation. The printed percentage is not modelled, the weights are."
  },
  {
   "property": "C46",
   "status": "proved",
   "theorems": [
    "C46_bit_operations",
    "C46_arithmetic",
    "C46_shift_right",
    "C46_shift_left",
    "C46_shift_left_refuted",
    "C46_masks",
    "C46_select",
    "C46_any",
    "C46_all",
    "C46_sse_all_refuted",
    "C46_half_sum",
    "C46_half_sum_refuted",
    "C46_saturating_add",
    "C46_high_mul",
    "C46_sse_high_mul_refuted",
    "C46_rounding_divide",
    "C46_sse_rounding_divide",
    "C46_rounding_divide_by_lane",
    "C46_neon_rounding_divide_refuted",
    "C46_multiply_by_pot",
    "C46_exp",
    "C46_one_over_one_plus_x",
    "C46_one_minus_x_over_one_plus_x",
    "C46_tanh",
    "C46_logistic"
   ],
   "note": "Intrinsics modelled after their documentation. Refuted: All on SSE, the minimum squared on 32-bit SSE, left shifts that overflow, half sums of negative odd sums, 16-bit NEON division with exponent 16."
  },
  {
   "property": "C47",
   "status": "proved",
   "theorems": [
    "C47_fast_u8",
    "C47_fast_f32",
    "C47_legacy_i32",
    "C47_pack_rhs",
    "C47_pack_lhs"
   ],
   "note": "ARM64 instances, described by one definition per family of generated assembly. Sizes within fast_sizes; result buffer distinct from the inputs."
  },
  {
   "property": "C48",
   "status": "proved",
   "theorems": [
    "C48_cache_friendly_rhs",
    "C48_cache_friendly_lhs",
    "C48_cache_friendly_refuted",
    "C48_legacy_scratch_refuted",
    "C48_threads_refuted"
   ],
   "note": "PackRHS and PackLHS always; cache friendly executors when the task count divides the dimension up to 1. The three failing cases are refuted theorems."
  },
  {
   "property": "C49",
   "status": "proved",
   "theorems": [
    "C49_packed_sums",
    "C49_longer_streams_refuted"
   ],
   "note": "Lane counts 1..8; the bound 2056 is sharp (refuted at 2057)."
  },
  {
   "property": "C50",
   "status": "proved",
   "theorems": [
    "C50_end_to_end_error"
   ],
   "note": "Ranges from 2^-118 to 2^127, product of scales from 2^-126, depth below 2^31/65025, multiplier below one and shift at most 31."
  },
  {
   "property": "C51",
   "status": "proved",
   "theorems": [
    "C51_tick_complete",
    "C51_report"
   ],
   "note": "Any interleaving; the report under the documented rule that one thread starts and finishes profiling."
  },
  {
   "property": "C52",
   "status": "proved",
   "theorems": [
    "C52_no_deadlock",
    "C52_exit_safe",
    "C52_exit_order_refuted",
    "C52_race_free",
    "C52_should_finish_race_refuted",
    "C52_thread_count_race_refuted"
   ],
   "note": "With ThreadExitCallback run before DeleteThreadInfo; the other order is a refuted theorem, as are the two remaining data races."
  },
  {
   "property": "C53",
   "status": "proved",
   "theorems": [
    "C53_sse4_64_kernel",
    "C53_sse4_32_kernel",
    "C53_gemm_sse4",
    "C53_sse4_unpadded_refuted",
    "C53_sse4_overread_refuted"
   ],
   "note": "Instructions modelled after their documentation; general registers unbounded. Refuted for packed data that is not padded."
  },
  {
   "property": "C54",
   "status": "proved",
   "theorems": [
    "C54_sse4_64_registers",
    "C54_sse4_32_registers",
    "C54_avx2_registers"
   ],
   "note": "Same model as C53."
  },
  {
   "property": "C55",
   "status": "proved",
   "theorems": [
    "C55_avx2_kernel",
    "C55_avx2_behind",
    "C55_gemm_avx2",
    "C55_avx2_tight_refuted"
   ],
   "note": "Same model as C53. The refuted theorem is about a block with nothing behind it; in a GEMM the sums are behind it."
  },
  {
   "property": "C56",
   "status": "proved",
   "theorems": [
    "C56_neon32_kernel",
    "C56_neon64_kernel",
    "C56_neon64_dotprod_kernel",
    "C56_gemm_neon"
   ],
   "note": "Instructions modelled after their documentation; general registers unbounded."
  },
  {
   "property": "C57",
   "status": "proved",
   "theorems": [
    "C57_neon32_registers",
    "C57_neon64_registers",
    "C57_dotprod_registers",
    "C57_int8_32_registers",
    "C57_int8_64_registers",
    "C57_bits12_registers"
   ],
   "note": "Same model as C56; all six kernels that use uint8 inputs; the 12-bit one for products below 4096."
  },
  {
   "property": "C58",
   "status": "proved",
   "theorems": [
    "C58_bits12_kernel",
    "C58_bound_refuted",
    "C58_gemm_bits12"
   ],
   "note": "Same model as C56. The local array is 48 words (192 bytes) of the kernel."
  },
  {
   "property": "C59",
   "status": "proved",
   "theorems": [
    "C59_choice_exists",
    "C59_small_ranges_refuted",
    "C59_choice_serves",
    "C59_choice_modelled",
    "C59_low_range_refuted"
   ],
   "note": "Signed lhs ranges are C64. The failing ranges are refuted theorems, and shown to be the only ones."
  },
  {
   "property": "C60",
   "status": "proved",
   "theorems": [
    "C60_pack_sse",
    "C60_pack_avx",
    "C60_pack_neon",
    "C60_pack_msa",
    "C60_neon_needs_16_refuted",
    "C60_same_as_generic",
    "C60_pack_lhs",
    "C60_pack_rhs"
   ],
   "note": "SSE4, AVX2, NEON and MSA code, uint8 inputs and (NEON) int8 inputs. NEON and MSA for the register size 16 they are built with; the refuted theorem shows that the NEON code does not work for 32."
  },
  {
   "property": "C61",
   "status": "proved",
   "theorems": [
    "C61_vector_unpack_equals_scalar",
    "C61_swr_swl_store_the_word",
    "C61_left_shift_overflow_refuted",
    "C61_minimum_squared_refuted"
   ],
   "note": "SSE, NEON and MSA; registers modelled after the documentation of the intrinsics. The two kinds of overflow where tiles differ are refuted theorems. AVX2 builds use the scalar code."
  },
  {
   "property": "C62",
   "status": "proved",
   "theorems": [
    "C62_exp_accuracy",
    "C62_logistic_accuracy",
    "C62_tanh_accuracy",
    "C62_exp_error_below_472_refuted"
   ],
   "note": "Depends on the axioms of Coq.Reals. The bounds for logistic and tanh are not the smallest: exhaustive evaluation outside the proof suggests about 153 and 307 units with 32 bits, 7 and 12 with 16."
  },
  {
   "property": "C63",
   "status": "proved",
   "theorems": [
    "C63_exp_32_within_test_tolerance",
    "C63_exp_interval_32_within_test_tolerance",
    "C63_exp_interval_16_tolerance_refuted",
    "C63_one_over_tolerance_refuted",
    "C63_one_minus_over_tolerance_refuted",
    "C63_logistic_16_tolerance_refuted"
   ],
   "note": "The positive part covers the two exp functions with 32 bits; the failing tolerances are refuted theorems. Nothing is claimed about the tolerances of tanh, of logistic with 32 bits, and of exp on negative values with 16 bits. Depends on the axioms of Coq.Reals."
  },
  {
   "property": "C64",
   "status": "proved",
   "theorems": [
    "C64_int8_inputs_kernels",
    "C64_gemm_int8_inputs",
    "C64_column_major_lhs_refuted",
    "C64_choice_exists",
    "C64_choice_serves",
    "C64_small_ranges_refuted",
    "C64_int8_inputs_32_registers",
    "C64_int8_inputs_64_registers"
   ],
   "note": "Instructions modelled after their documentation. The other storage orders do not compile, and signed ranges whose maxima multiply to less than 4096 have no kernel (refuted theorems)."
  },
  {
   "property": "C65",
   "status": "proved",
   "theorems": [
    "C65_bit_operations",
    "C65_dup",
    "C65_arithmetic",
    "C65_product",
    "C65_shift_right",
    "C65_avx_shift_right",
    "C65_shift_right_refuted",
    "C65_shift_left",
    "C65_shift_left_refuted",
    "C65_masks",
    "C65_select",
    "C65_select_by_bits",
    "C65_avx_select_refuted",
    "C65_any",
    "C65_all",
    "C65_avx_tests_refuted",
    "C65_half_sum",
    "C65_saturating_add",
    "C65_high_mul",
    "C65_avx_high_mul_refuted",
    "C65_rounding_divide",
    "C65_rounding_divide_refuted",
    "C65_multiply_by_pot",
    "C65_exp",
    "C65_one_over_one_plus_x",
    "C65_one_minus_x_over_one_plus_x",
    "C65_tanh",
    "C65_logistic"
   ],
   "note": "Intrinsics modelled after their documentation. Refuted: Any and All on AVX, the minimum squared on 32-bit AVX, selection by non-masks on 32-bit AVX, left shifts that overflow, 16-bit shifts and divisions by 2^16 on WebAssembly and MSA."
  },
  {
   "property": "C66",
   "status": "proved",
   "theorems": [
    "C66_msa_kernel",
    "C66_msa_int8_kernel",
    "C66_msa_int8_any_pair_refuted",
    "C66_gemm_msa",
    "C66_gemm_msa_lhs_nonzero",
    "C66_registers",
    "C66_int8_registers"
   ],
   "note": "Instructions modelled after their documentation; general registers unbounded. The restriction of the int8 kernel is shown necessary by a refuted theorem. The output code of these GEMM theorems is the vectorised one, in any of the three variants of its stores."
  },
  {
   "property": "C67",
   "status": "proved",
   "theorems": [
    "C67_requantize",
    "C67_quantize",
    "C67_dequantize",
    "C67_minmax",
    "C67_biasadd",
    "C67_multi_thread",
    "C67_terminates_refuted",
    "C67_biasadd_needs_rows",
    "C67_test_requantize_refuted",
    "C67_biasadd_offsets_refuted",
    "C67_cost_refuted"
   ],
   "note": "ARM64 only. Instructions modelled after their documentation, floats by SpecFloat of the standard library; the refuted theorems give the cases in which the code differs from the formulas of its test."
  },
  {
   "property": "C68",
   "status": "proved",
   "theorems": [
    "C68_requantize",
    "C68_quantize",
    "C68_dequantize",
    "C68_minmax",
    "C68_biasadd",
    "C68_multi_thread",
    "C68_same_as_arm64_refuted"
   ],
   "note": "Instructions modelled after their documentation, with the flushing to zero of 32-bit ARM vectors; floats by SpecFloat of the standard library. The refuted theorem shows that Requantize differs between the two processors."
  },
  {
   "property": "C69",
   "status": "proved",
   "theorems": [
    "C69_no_overflow",
    "C69_depth_refuted",
    "C69_threads_refuted"
   ],
   "note": "The factor enters through the same oracle as in C16, at most 1. Both bounds are shown necessary by refuted theorems."
  },
  {
   "property": "C70",
   "status": "proved",
   "theorems": [
    "C70_gemm_buffers",
    "C70_x86_refuted",
    "C70_requests_serve_gemm",
    "C70_positions"
   ],
   "note": "Takes the conditions on the sizes in C14 from the size of the problem. The allocation is assumed to succeed up to 2^63 bytes. The refuted theorem takes signed overflow as wrap-around."
  }
 ]
}