{
 "claims": [
  {
   "property": "C01",
   "status": "proved",
   "theorems": [
    "C01_from_slice",
    "C01_from_vec",
    "C01_from_vec_zero_panics",
    "C01_too_long_panics",
    "C01_from_usize",
    "C01_unbounded_refuted"
   ],
   "note": "Proved as stated. C01_unbounded_refuted shows that the 32-bit bound in the statement cannot be dropped."
  },
  {
   "property": "C02",
   "status": "partial",
   "theorems": [
    "C02_exact",
    "C02_shape_eq_partial",
    "C02_with_cols_refuted",
    "C02_reduce_refuted",
    "C02_rinsert_refuted"
   ],
   "note": "False as stated: three witnesses (_refuted). Proved for every shape built by the operations that cannot leave stale slots (C02_shape_eq_partial); C02_exact says what == compares for all shapes. Missing: nothing that is true of the code."
  },
  {
   "property": "C03",
   "status": "proved",
   "theorems": [
    "C03_insert",
    "C03_rinsert",
    "C03_remove",
    "C03_rremove",
    "C03_with_dim",
    "C03_rreplace",
    "C03_with_cols",
    "C03_with_rows",
    "C03_push",
    "C03_pop",
    "C03_remove_undoes_insert",
    "C03_out_of_range"
   ],
   "note": "The one insertion within rank six that is excluded by the hypotheses of C03_insert and C03_rinsert, the outermost axis of a rank-5 shape, panics: C04."
  },
  {
   "property": "C04",
   "status": "partial",
   "theorems": [
    "C04_exact",
    "C04_insert_total_partial",
    "C04_refuted",
    "C04_rank5_always_panics"
   ],
   "note": "False as stated (C04_refuted). C04_exact: an insertion succeeds exactly when the resulting rank is at most six and it is not the outermost axis of a rank-5 shape."
  },
  {
   "property": "C05",
   "status": "proved",
   "theorems": [
    "C05_squeeze",
    "C05_squeeze_size",
    "C05_expand_dims",
    "C05_expand_dims_size",
    "C05_squeeze_expand"
   ],
   "note": ""
  },
  {
   "property": "C06",
   "status": "partial",
   "theorems": [
    "C06_exact",
    "C06_squeeze_axis_actual",
    "C06_refuted"
   ],
   "note": "False as stated (C06_refuted). C06_exact and C06_squeeze_axis_actual say what the call does for every shape and axis."
  },
  {
   "property": "C07",
   "status": "partial",
   "theorems": [
    "C07_exact",
    "C07_rank_grows_by_six",
    "C07_refuted"
   ],
   "note": "False as stated (C07_refuted). C07_exact and C07_rank_grows_by_six say what append does for every shape and tail."
  },
  {
   "property": "C08",
   "status": "proved",
   "theorems": [
    "C08_broadcast_accepts",
    "C08_broadcast_rejects",
    "C08_check_broadcast",
    "C08_broadcast_size",
    "C08_commutative",
    "C08_associative",
    "C08_idempotent"
   ],
   "note": ""
  },
  {
   "property": "C09",
   "status": "partial",
   "theorems": [
    "C09_sublen",
    "C09_rsublen",
    "C09_batch_len_actual",
    "C09_batch_len_refuted"
   ],
   "note": "sublen and rsublen proved as stated. The clause on batch_len is false (C09_batch_len_refuted); C09_batch_len_actual gives its value for every shape."
  },
  {
   "property": "C10",
   "status": "partial",
   "theorems": [
    "C10_release_exact",
    "C10_checked",
    "C10_supported",
    "C10_release_refuted"
   ],
   "note": "Proved with overflow checks (C10_checked). False in release builds (C10_release_refuted); C10_release_exact gives the wrapped value for every shape."
  },
  {
   "property": "C11",
   "status": "proved",
   "theorems": [
    "C11_from_vec",
    "C11_observe",
    "C11_unique",
    "C11_scalar",
    "C11_option",
    "C11_items",
    "C11_from_slice"
   ],
   "note": ""
  },
  {
   "property": "C12",
   "status": "proved",
   "theorems": [
    "C12_vec2",
    "C12_vec2_rejects",
    "C12_vec3",
    "C12_vec3_rejects",
    "C12_vec4",
    "C12_vec4_rejects",
    "C12_rows",
    "C12_rows2"
   ],
   "note": ""
  },
  {
   "property": "C13",
   "status": "proved",
   "theorems": [
    "C13_subslice",
    "C13_subslice_rejects",
    "C13_subslice_subslice"
   ],
   "note": ""
  },
  {
   "property": "C14",
   "status": "partial",
   "theorems": [
    "C14_no_wrap",
    "C14_release_exact",
    "C14_inside",
    "C14_checked",
    "C14_release_refuted"
   ],
   "note": "Proved with overflow checks (C14_checked) and in every profile when o + n is below 2^64 (C14_no_wrap). False in release builds beyond that (C14_release_refuted); C14_release_exact says which requests release builds accept, and C14_inside that an accepted view shows elements of the parent only."
  },
  {
   "property": "C15",
   "status": "partial",
   "theorems": [
    "C15_get_beyond",
    "C15_get_partial",
    "C15_refuted",
    "C15_get_actual"
   ],
   "note": "Proved for tensors at offset 0 (C15_get_partial) and for i >= size (C15_get_beyond). False for views (C15_refuted); C15_get_actual gives the result of get for every tensor and index."
  },
  {
   "property": "C16",
   "status": "partial",
   "theorems": [
    "C16_index3_small",
    "C16_index4_small",
    "C16_wrap_refuted",
    "C16_index2_partial",
    "C16_index2_actual",
    "C16_index2_refuted",
    "C16_index1",
    "C16_index3_partial",
    "C16_index3_refuted",
    "C16_index4_partial",
    "C16_index4_refuted",
    "C16_index5"
   ],
   "note": "One and five indices proved as stated; two indices proved for tensors at offset 0 (_partial). Three and four indices proved for tensors of more than two, respectively three, elements (_partial). C16_index2_actual gives two indices for every tensor: on a view an index out of range may be undefined behaviour, since the panic message formats the view (_refuted). Three and four indices panic on every lookup in smaller tensors (C16_index3_small, C16_index4_small, _refuted). In release builds tensors whose size has wrapped around can be indexed where they have no element (C16_wrap_refuted)."
  },
  {
   "property": "C17",
   "status": "proved",
   "theorems": [
    "C17_reshape",
    "C17_reshape_back",
    "C17_flatten",
    "C17_expand_dims",
    "C17_squeeze",
    "C17_squeeze_axis"
   ],
   "note": ""
  },
  {
   "property": "C18",
   "status": "partial",
   "theorems": [
    "C18_wrap_slice_n_actual",
    "C18_wrap_slice",
    "C18_wrap_ptr",
    "C18_wrap_slice_n_partial",
    "C18_wrap_slice_n_refuted"
   ],
   "note": "as_wrap_slice and as_wrap_ptr proved as stated. as_wrap_slice_n proved at offset 0 (_partial), false for views (_refuted); C18_wrap_slice_n_actual gives its result for every tensor."
  },
  {
   "property": "C19",
   "status": "proved",
   "theorems": [
    "C19_iter_row",
    "C19_iter_row_rank1",
    "C19_iter"
   ],
   "note": ""
  },
  {
   "property": "C20",
   "status": "partial",
   "theorems": [
    "C20_append_zero",
    "C20_append",
    "C20_append_rejects",
    "C20_append_shape_refuted",
    "C20_from_merge",
    "C20_join_vec",
    "C20_of_tensors",
    "C20_of_tensors_empty",
    "C20_of_tensors_rejects"
   ],
   "note": "from_merge, join_vec and conversion from tensors proved as stated. append: proved when the rows have the same number of elements; it does not reject rows of the same size and different shape (C20_append_shape_refuted), and panics when a dimension of the result is zero (C20_append_zero)."
  },
  {
   "property": "C21",
   "status": "partial",
   "theorems": [
    "C21_cmp_eq_exact",
    "C21_eq",
    "C21_partial_cmp",
    "C21_cmp_eq_refuted"
   ],
   "note": "== and partial_cmp proved as stated. The last clause is false (C21_cmp_eq_refuted); C21_cmp_eq_exact says when partial_cmp gives Equal."
  },
  {
   "property": "C22",
   "status": "partial",
   "theorems": [
    "C22_history",
    "C22_get_refuted",
    "C22_subslice_flat_refuted",
    "C22_tile_refuted",
    "C22_fold_row_refuted",
    "C22_matvec_refuted",
    "C22_fields",
    "C22_fields_refuted",
    "C22_release_refuted"
   ],
   "note": "Proved for all finite histories over the calls listed in SafetySpec.call (C22_history). The calls excluded there exhibit undefined behaviour on safe inputs; each has a _refuted theorem. The exceptions named in the statement are fewer than those found. Assignments to the public fields are outside of the histories (C22_fields, C22_fields_refuted)."
  },
  {
   "property": "C23",
   "status": "partial",
   "theorems": [
    "C23_refuted",
    "C23_map",
    "C23_map2",
    "C23_views",
    "C23_result",
    "C23_result_map",
    "C23_result_float"
   ],
   "note": "False as stated (C23_refuted). Proved: which calls allocate nothing for empty results, and that the results of map, map2 and the calls of C22 do not depend on how the allocator treats zero-size requests when the result is non-empty."
  },
  {
   "property": "C24",
   "status": "proved",
   "theorems": [
    "C24_init",
    "C24_init_rindexed",
    "C24_coords",
    "C24_init_rindexed_pure"
   ],
   "note": ""
  },
  {
   "property": "C25",
   "status": "proved",
   "theorems": [
    "C25_map",
    "C25_map_pure"
   ],
   "note": ""
  },
  {
   "property": "C26",
   "status": "proved",
   "theorems": [
    "C26_map_row",
    "C26_layout",
    "C26_map_expand",
    "C26_map_row_no_rows"
   ],
   "note": ""
  },
  {
   "property": "C27",
   "status": "proved",
   "theorems": [
    "C27_map2",
    "C27_map2_rejects",
    "C27_map3",
    "C27_map3_rejects"
   ],
   "note": ""
  },
  {
   "property": "C28",
   "status": "proved",
   "theorems": [
    "C28_tensor_tensor",
    "C28_tensor_tensor_total",
    "C28_tensor_scalar",
    "C28_scalar_tensor",
    "C28_unary",
    "C28_scalar_is_rank_0"
   ],
   "note": ""
  },
  {
   "property": "C29",
   "status": "proved",
   "theorems": [
    "C29_fold",
    "C29_reduce",
    "C29_reduce_empty",
    "C29_fold_pure"
   ],
   "note": ""
  },
  {
   "property": "C30",
   "status": "proved",
   "theorems": [
    "C30_lines_unique",
    "C30_fold_axis",
    "C30_reduce_axis",
    "C30_zero_kept_dim",
    "C30_fold_axis_none",
    "C30_reduce_axis_none"
   ],
   "note": ""
  },
  {
   "property": "C31",
   "status": "partial",
   "theorems": [
    "C31_axis_from_rank_actual",
    "C31_actual",
    "C31_scalar_rejects",
    "C31_refuted",
    "C31_axis_from_rank_valid",
    "C31_axis_from_rank_refuted"
   ],
   "note": "False as stated (C31_refuted, C31_axis_from_rank_refuted). C31_actual and C31_axis_from_rank_actual give the axis used for every rank and every argument; rank 0 is rejected (C31_scalar_rejects)."
  },
  {
   "property": "C32",
   "status": "partial",
   "theorems": [
    "C32_rank1_actual",
    "C32_view_never_returns",
    "C32_fold_row_axis_partial",
    "C32_fold_row_none_partial",
    "C32_rank1_refuted",
    "C32_view_refuted"
   ],
   "note": "Proved for tensors at offset 0 with rank at least two or no axis (_partial). False otherwise (_refuted); C32_rank1_actual and C32_view_never_returns say what happens in the remaining cases."
  },
  {
   "property": "C33",
   "status": "partial",
   "theorems": [
    "C33_actual",
    "C33_last_axis_partial",
    "C33_no_axis_partial",
    "C33_refuted"
   ],
   "note": "Proved for no axis and for the last axis (_partial). False for other axes (C33_refuted); C33_actual gives the layout for every axis."
  },
  {
   "property": "C34",
   "status": "proved",
   "theorems": [
    "C34_transpose",
    "C34_transpose_vector",
    "C34_transpose_twice",
    "C34_transpose_scalar",
    "C34_transpose_empty"
   ],
   "note": ""
  },
  {
   "property": "C35",
   "status": "partial",
   "theorems": [
    "C35_concatenate",
    "C35_concatenate_first",
    "C35_concatenate_rejects",
    "C35_concatenate_nothing",
    "C35_concatenate_rank6_refuted",
    "C35_rank6_always_panics"
   ],
   "note": "Proved for all ranks up to six and all axes except axis 0 of rank-6 tensors, which panics (C35_rank6_always_panics, C35_concatenate_rank6_refuted)."
  },
  {
   "property": "C36",
   "status": "partial",
   "theorems": [
    "C36_split_concatenate",
    "C36_bad_cuts_panic",
    "C36_release_overflow_refuted",
    "C36_empty_refuted",
    "C36_empty"
   ],
   "note": "Proved for non-empty tensors; C36_empty says what happens to empty ones, where the claim is false (C36_empty_refuted). Also false for release builds when a cut product wraps (C36_release_overflow_refuted). Joining back rank-6 pieces along axis 0 fails as in C35."
  },
  {
   "property": "C37",
   "status": "partial",
   "theorems": [
    "C37_split_equal",
    "C37_split_sections",
    "C37_split_equal_refuted",
    "C37_empty"
   ],
   "note": "Proved when n divides the axis (C37_split_equal). False otherwise (C37_split_equal_refuted); C37_split_sections gives the result for every n, and C37_empty for tensors without elements."
  },
  {
   "property": "C38",
   "status": "partial",
   "theorems": [
    "C38_stack",
    "C38_stack_rejects",
    "C38_stack_first",
    "C38_vstack",
    "C38_hstack",
    "C38_dstack_matrix",
    "C38_dstack_vector",
    "C38_dstack_high",
    "C38_stack_rank5_refuted",
    "C38_stack_empty_refuted",
    "C38_stack_general",
    "C38_stack_zero",
    "C38_rank5_always_panics"
   ],
   "note": "Proved whenever the dimensions after the new axis are positive (C38_stack_general), except the outermost axis of rank-5 tensors, which always panics (C38_rank5_always_panics); with a zero after the new axis it panics (C38_stack_zero)."
  },
  {
   "property": "C39",
   "status": "partial",
   "theorems": [
    "C39_unstack_actual",
    "C39_unstack_refuted",
    "C39_empty"
   ],
   "note": "False as stated (C39_unstack_refuted). C39_unstack_actual gives the result for every tensor with elements and every axis, C39_empty for those without."
  },
  {
   "property": "C40",
   "status": "partial",
   "theorems": [
    "C40_tile",
    "C40_tile_zero_refuted",
    "C40_tile_matrix_multiples_refuted",
    "C40_tile_zero",
    "C40_tile_scalar_multiple",
    "C40_tile_nothing",
    "C40_tile_any",
    "C40_tile_no_multiples"
   ],
   "note": "Proved for every positive tensor and every vector of positive multiples, except that a scalar with no multiples panics in debug builds (C40_tile_nothing). Multiples given as a scalar, with a zero, or as a matrix are outside the quantifier; C40_tile_zero, C40_tile_scalar_multiple, C40_tile_any and C40_tile_no_multiples say what happens then."
  },
  {
   "property": "C41",
   "status": "proved",
   "theorems": [
    "C41_eye",
    "C41_eye_zero",
    "C41_tri",
    "C41_diagflat",
    "C41_diagflat_rank",
    "C41_tril",
    "C41_triu",
    "C41_tril_triu_rank",
    "C41_tril_triu_empty"
   ],
   "note": ""
  },
  {
   "property": "C42",
   "status": "proved",
   "theorems": [
    "C42_mgrid_b32",
    "C42_meshgrid_xy",
    "C42_meshgrid_ij",
    "C42_meshgrid_rank",
    "C42_mgrid_real"
   ],
   "note": ""
  },
  {
   "property": "C43",
   "status": "proved",
   "theorems": [
    "C43_geomspace_order",
    "C43_linspace_int_b32",
    "C43_logspace_int_b32",
    "C43_faithful_exact",
    "C43_linspace",
    "C43_linspace_real",
    "C43_linspace_one",
    "C43_logspace_real",
    "C43_geomspace_real",
    "C43_geomspace_scalar",
    "C43_order",
    "C43_shapes",
    "C43_linspace_deep",
    "C43_linspace_first_b32",
    "C43_linspace_b32_refuted"
   ],
   "note": "Exact over the reals, as claimed, and in binary32 for whole steps between integers (C43_linspace_int_b32). C43_linspace_b32_refuted records what rounding does to the same formula in binary32: the first sample is NaN when end - start overflows, and the last need not equal end."
  },
  {
   "property": "C44",
   "status": "partial",
   "theorems": [
    "C44_arange_b32",
    "C44_arange_b32_terminates",
    "C44_arange_count_refuted",
    "C44_arange_result",
    "C44_arange_real",
    "C44_arange_int_b32",
    "C44_arange_direction",
    "C44_arange_refuted",
    "C44_arange_b32_refuted",
    "C44_arange_stuck_refuted"
   ],
   "note": "Proved for positive steps over the reals (C44_arange_real) and for integers below 2^24 in binary32 (C44_arange_int_b32). C44_arange_b32 gives the result for every positive step in binary32, with the error of each member, and C44_arange_b32_terminates says when the call returns. False for negative steps (C44_arange_refuted) and in binary32 when the progression stops growing (C44_arange_stuck_refuted); rounding may add a member (C44_arange_count_refuted)."
  },
  {
   "property": "C45",
   "status": "proved",
   "theorems": [
    "C45_one_hot",
    "C45_one_hot_range"
   ],
   "note": ""
  },
  {
   "property": "C46",
   "status": "proved",
   "theorems": [
    "C46_matmul",
    "C46_matmul_transpose_a",
    "C46_matmul_transpose_b",
    "C46_matmul_transpose_ab",
    "C46_matmul_real",
    "C46_matmul_b32"
   ],
   "note": "The naive kernel is modelled exactly. Where the code calls matrixmultiply::sgemm (external crate), C82 says what follows from its contract alone."
  },
  {
   "property": "C47",
   "status": "partial",
   "theorems": [
    "C47_matmul_label",
    "C47_refuted"
   ],
   "note": "False as stated (C47_refuted). C47_matmul_label gives the shape for every m, k, n."
  },
  {
   "property": "C48",
   "status": "partial",
   "theorems": [
    "C48_matmul_more_t",
    "C48_matmul_fewer_t",
    "C48_matmul_safe",
    "C48_matmul_rank",
    "C48_matmul_more",
    "C48_matmul_fewer",
    "C48_refuted"
   ],
   "note": "Proved for equal batches (C48_matmul_safe) and for more batches on the right (C48_matmul_more, and _t for the transposed products). False when the right operand has fewer (C48_matmul_fewer, C48_refuted)."
  },
  {
   "property": "C49",
   "status": "proved",
   "theorems": [
    "C49_matvec",
    "C49_matvec_transpose",
    "C49_matvec_vector",
    "C49_matvec_vector_transpose",
    "C49_matvec_incompatible",
    "C49_matvec_vector_incompatible",
    "C49_matvec_rank",
    "C49_matvec_fewer",
    "C49_matvec_empty",
    "C49_matvec_safe"
   ],
   "note": ""
  },
  {
   "property": "C50",
   "status": "proved",
   "theorems": [
    "C50_mean_any",
    "C50_mean",
    "C50_variance",
    "C50_std",
    "C50_empty",
    "C50_single",
    "C50_variance_nonneg",
    "C50_mean_axis",
    "C50_variance_axis",
    "C50_std_axis",
    "C50_axis_none"
   ],
   "note": "Over the reals, as claimed; C50_mean_any states the same for any arithmetic."
  },
  {
   "property": "C51",
   "status": "proved",
   "theorems": [
    "C51_sum_any",
    "C51_sum",
    "C51_product",
    "C51_min",
    "C51_max",
    "C51_hypot",
    "C51_empty",
    "C51_sum_axis",
    "C51_product_axis",
    "C51_min_axis",
    "C51_max_axis",
    "C51_axis_total",
    "C51_hypot_b32_overflow"
   ],
   "note": "Over the reals, as claimed; C51_hypot_b32_overflow shows an overflow in binary32."
  },
  {
   "property": "C52",
   "status": "proved",
   "theorems": [
    "C52_normalize_unit",
    "C52_unit_interval",
    "C52_constant_b32",
    "C52_overflow_b32"
   ],
   "note": "Over the reals, as claimed; C52_constant_b32 and C52_overflow_b32 show NaN results in binary32."
  },
  {
   "property": "C53",
   "status": "partial",
   "theorems": [
    "C53_floor_b32",
    "C53_bins_b32",
    "C53_overflow_b32_refuted",
    "C53_histogram_any",
    "C53_default_bins",
    "C53_histogram",
    "C53_histogram_b32",
    "C53_edges_b32_refuted",
    "C53_empty",
    "C53_rank",
    "C53_no_bins"
   ],
   "note": "Proved over the reals (C53_histogram) with C53_histogram_any for any arithmetic. In binary32 the counts add up (C53_histogram_b32), the bins are in the order of the samples and contain them up to a relative error of 2^-22 unless the range overflows or underflows (C53_bins_b32); exactly they need not (C53_edges_b32_refuted, C53_overflow_b32_refuted)."
  },
  {
   "property": "C54",
   "status": "partial",
   "theorems": [
    "C54_refuted"
   ],
   "note": "False as stated: every call panics (C54_refuted is for all inputs)."
  },
  {
   "property": "C55",
   "status": "proved",
   "theorems": [
    "C55_rand32_full_period",
    "C55_rand32_return",
    "C55_rand64_full_period",
    "C55_rand64_return",
    "C55_rand32_equidistributed",
    "C55_rand64_equidistributed",
    "C55_rand64_results_repeat"
   ],
   "note": "C55_rand64_results_repeat: the 64-bit outputs repeat after 2^96 steps although the state has period 2^128."
  },
  {
   "property": "C56",
   "status": "partial",
   "theorems": [
    "C56_rand32_uniform",
    "C56_rand32_uniform_ends",
    "C56_rand32_uniform_value",
    "C56_rand64_uniform_refuted",
    "C56_rand64_uniform_actual",
    "C56_rand64_uniform_b64",
    "C56_random_uniform_refuted",
    "C56_constants",
    "C56_normal_infinite",
    "C56_rand64_normal_nan",
    "C56_rand64_normal_draws",
    "C56_rand64_normal_value",
    "C56_rand32_normal_range",
    "C56_normal_faithful",
    "C56_faithful_nearest",
    "C56_normal_number_iff"
   ],
   "note": "Proved for Rand32. False for Rand64 and for random_uniform (_refuted); C56_rand64_uniform_actual gives the range of Rand64, and C56_rand64_normal_nan what it does to next_normal."
  },
  {
   "property": "C57",
   "status": "proved",
   "theorems": [
    "C57_random_normal",
    "C57_random_uniform",
    "C57_unseeded",
    "C57_prefix",
    "C57_string_seed",
    "C57_options",
    "C57_random_normal_finite",
    "C57_normal_faithful",
    "C57_random_uniform_finite",
    "C57_defaults"
   ],
   "note": ""
  },
  {
   "property": "C58",
   "status": "partial",
   "theorems": [
    "C58_seed_nonzero",
    "C58_schedule",
    "C58_keep",
    "C58_unseeded",
    "C58_progress",
    "C58_lock_free",
    "C58_seed_collision",
    "C58_distinct",
    "C58_distinct_refuted"
   ],
   "note": "Proved: under every schedule the values handed out are the successive values of the seed sequence, none skipped (C58_schedule). They are distinct for as long as the sequence does not repeat (C58_distinct); it does repeat (C58_distinct_refuted)."
  },
  {
   "property": "C59",
   "status": "proved",
   "theorems": [
    "C59_decode",
    "C59_rejects",
    "C59_roundtrip",
    "C59_truncated",
    "C59_sample_b32"
   ],
   "note": ""
  },
  {
   "property": "C60",
   "status": "partial",
   "theorems": [
    "C60_read_file_actual",
    "C60_read_file_partial",
    "C60_refuted",
    "C60_errors"
   ],
   "note": "Proved when the single read transfers the whole file (_partial). False otherwise (C60_refuted); C60_read_file_actual gives the result for every read length."
  },
  {
   "property": "C61",
   "status": "partial",
   "theorems": [
    "C61_vector",
    "C61_rows",
    "C61_refuted",
    "C61_no_columns",
    "C61_scalar",
    "C61_no_rows",
    "C61_dft"
   ],
   "note": "Proved for vectors, for any transform that preserves length. False for matrices with more than one column (C61_refuted); C61_rows covers every shape. The FFT (crate rustfft) is an oracle; C61_dft instantiates it with the discrete Fourier transform over the reals."
  },
  {
   "property": "C62",
   "status": "proved",
   "theorems": [
    "C62_conserve",
    "C62_leaks",
    "C62_all",
    "C62_alive",
    "C62_drop_shared",
    "C62_drop_last",
    "C62_free_once",
    "C62_free_unused",
    "C62_panicking_initialiser_leaks"
   ],
   "note": "Initialisers that panic leak what they wrote (C62_panicking_initialiser_leaks); leaked elements are never dropped twice."
  },
  {
   "property": "C63",
   "status": "proved",
   "theorems": [
    "C63_chain",
    "C63_determined",
    "C63_commute",
    "C63_unknown"
   ],
   "note": ""
  },
  {
   "property": "C64",
   "status": "partial",
   "theorems": [
    "C64_debug_partial",
    "C64_elements_partial",
    "C64_view_actual",
    "C64_refuted",
    "C64_out_of_bounds_refuted"
   ],
   "note": "Proved for tensors at offset 0 (_partial). False for views (_refuted); C64_view_actual says for every view what is printed, and when the formatter reads outside the buffer."
  },
  {
   "property": "C65",
   "status": "proved",
   "theorems": [
    "C65_frame",
    "C65_slice_usize",
    "C65_slice_pair",
    "C65_map2"
   ],
   "note": "Panics are proved for every argument; the functions contain todo!()."
  },
  {
   "property": "C66",
   "status": "proved",
   "theorems": [
    "C66_vec5",
    "C66_vec5_rejects",
    "C66_vec_rows",
    "C66_vec_rows_rejects",
    "C66_rows3"
   ],
   "note": ""
  },
  {
   "property": "C67",
   "status": "proved",
   "theorems": [
    "C67_vecs",
    "C67_tuple",
    "C67_tuple_rejects",
    "C67_functions",
    "C67_methods",
    "C67_panic",
    "C67_first_axis",
    "C67_vectors"
   ],
   "note": ""
  },
  {
   "property": "C68",
   "status": "proved",
   "theorems": [
    "C68_mean_axis",
    "C68_sum",
    "C68_sum_axis",
    "C68_gamma",
    "C68_sum_exact",
    "C68_mean",
    "C68_mean_range_refuted",
    "C68_matmul",
    "C68_matvec"
   ],
   "note": "For finite results. The products are for sums in the order of sgemm_naive; matrixmultiply (external crate) may add in another order, for which C82 gives the same bounds. C68_mean_range_refuted records that the mean of equal elements may differ from them."
  },
  {
   "property": "C69",
   "status": "proved",
   "theorems": [
    "C69_variance",
    "C69_std",
    "C69_axis",
    "C69_refuted"
   ],
   "note": "C69_refuted shows that the bound on the magnitudes cannot be dropped: on overflow the variance may be minus infinity and the deviation NaN."
  },
  {
   "property": "C70",
   "status": "proved",
   "theorems": [
    "C70_min",
    "C70_max",
    "C70_min_axis",
    "C70_max_axis"
   ],
   "note": ""
  },
  {
   "property": "C71",
   "status": "proved",
   "theorems": [
    "C71_agree",
    "C71_ok",
    "C71_release_panic",
    "C71_defined",
    "C71_release_ub_refuted"
   ],
   "note": "Programs are those of ProfileSpec.program. The converse is false: C71_release_ub_refuted has a tile call that panics in debug builds and writes outside its buffer in release builds."
  },
  {
   "property": "C72",
   "status": "proved",
   "theorems": [
    "C72_comm",
    "C72_assoc",
    "C72_distrib",
    "C72_unit",
    "C72_inverse",
    "C72_self",
    "C72_fusion",
    "C72_homomorphism",
    "C72_reduce",
    "C72_reduce_axis",
    "C72_reduce_order",
    "C72_reduce_total",
    "C72_same"
   ],
   "note": "Proved for operations that do not panic; C72_comm also for those that may."
  },
  {
   "property": "C73",
   "status": "proved",
   "theorems": [
    "C73_semirings",
    "C73_assoc",
    "C73_assoc_square",
    "C73_assoc_refuted",
    "C73_b32_refuted",
    "C73_identity_r",
    "C73_identity_l",
    "C73_distrib_l",
    "C73_distrib_r",
    "C73_scale",
    "C73_transpose",
    "C73_mul_comm_b32",
    "C73_flag_a",
    "C73_flag_b",
    "C73_flag_ab",
    "C73_matvec_matmul",
    "C73_matvec",
    "C73_matvec_add",
    "C73_matvec_identity"
   ],
   "note": "Without the relabelling associativity is false for products that are not square (C73_assoc_refuted, a consequence of C47), and with f32 it is false for rounding (C73_b32_refuted); the laws for transposes need no semiring and hold with f32 as well."
  },
  {
   "property": "C74",
   "status": "proved",
   "theorems": [
    "C74_constant",
    "C74_scalar",
    "C74_map",
    "C74_binop",
    "C74_unit",
    "C74_reshape",
    "C74_transpose",
    "C74_sum",
    "C74_count_b32"
   ],
   "note": ""
  },
  {
   "property": "C75",
   "status": "proved",
   "theorems": [
    "C75_idim",
    "C75_idim_refuted",
    "C75_conversions",
    "C75_accessors",
    "C75_dim_refuted",
    "C75_debug_shape",
    "C75_axis",
    "C75_methods",
    "C75_methods_float",
    "C75_complex",
    "C75_polar",
    "C75_elementwise",
    "C75_mul_add"
   ],
   "note": "C75_idim_refuted is the last clause of the statement. C75_dim_refuted: in release builds dim accepts positions near 2^64, which is why the statement bounds them; the methods that forward are stated as equations between model definitions."
  },
  {
   "property": "C76",
   "status": "proved",
   "theorems": [
    "C76_views",
    "C76_arrays",
    "C76_conversions",
    "C76_arguments",
    "C76_matrices",
    "C76_text",
    "C76_init",
    "C76_init_rindexed",
    "C76_map",
    "C76_map_row",
    "C76_map_expand",
    "C76_map2",
    "C76_map3",
    "C76_fold",
    "C76_fold_axis",
    "C76_fold_row",
    "C76_reduce",
    "C76_reduce_axis",
    "C76_normalize",
    "C76_sum",
    "C76_minmax",
    "C76_compare",
    "C76_matmul",
    "C76_matmul_int"
   ],
   "note": ""
  },
  {
   "property": "C77",
   "status": "proved",
   "theorems": [
    "C77_map2_row_one",
    "C77_map2_row_wide",
    "C77_read_u16",
    "C77_read_slice"
   ],
   "note": "Operands that are views are left out: as_wrap_slice_n adds their offset twice (C18)."
  },
  {
   "property": "C78",
   "status": "proved",
   "theorems": [
    "C78_reads",
    "C78_views",
    "C78_arrays",
    "C78_arguments",
    "C78_closures",
    "C78_operators",
    "C78_matrices",
    "C78_numbers",
    "C78_copy",
    "C78_products",
    "C78_products_refuted",
    "C78_zero",
    "C78_exceptions_refuted"
   ],
   "note": "The exceptions named in the statement are witnessed by C78_exceptions_refuted and C78_products_refuted; they are the findings C15, C16, C32, C48 and C64."
  },
  {
   "property": "C79",
   "status": "proved",
   "theorems": [
    "C79_reshape_reshape",
    "C79_map_map",
    "C79_map2_map",
    "C79_fold_map",
    "C79_concatenate_groups",
    "C79_split_joints",
    "C79_subslice_concatenate",
    "C79_subslice_stack",
    "C79_reduce_append",
    "C79_reduce_axis_concatenate",
    "C79_transpose_concatenate",
    "C79_tile_tile",
    "C79_broadcast_tile"
   ],
   "note": "Slices of slices are C13_subslice_subslice; joining the pieces of a split tensor is C36; transposing twice is C34."
  },
  {
   "property": "C80",
   "status": "proved",
   "theorems": [
    "C80_product_axis",
    "C80_unit_error",
    "C80_geomspace_error",
    "C80_geomspace_batch",
    "C80_logspace_error",
    "C80_geomspace_zero",
    "C80_geomspace_zero_batch",
    "C80_unit_interval",
    "C80_unit_order_refuted",
    "C80_linspace_order",
    "C80_linspace_end_refuted",
    "C80_linspace_error",
    "C80_product",
    "C80_hypot"
   ],
   "note": "The exceptions named in the statement are witnessed by C80_unit_order_refuted and C80_linspace_end_refuted."
  },
  {
   "property": "C81",
   "status": "proved",
   "theorems": [
    "C81_views",
    "C81_arrays",
    "C81_conversions",
    "C81_arguments",
    "C81_matrices",
    "C81_text",
    "C81_init",
    "C81_init_rindexed",
    "C81_map",
    "C81_map_row",
    "C81_map_expand",
    "C81_map2",
    "C81_map3",
    "C81_fold",
    "C81_fold_axis",
    "C81_fold_row",
    "C81_reduce",
    "C81_reduce_axis",
    "C81_normalize",
    "C81_elements"
   ],
   "note": "About the buffers: a view may, by the findings C15, C18 and C64, show elements of its buffer that lie outside it."
  },
  {
   "property": "C82",
   "status": "proved",
   "theorems": [
    "C82_model",
    "C82_loop",
    "C82_naive",
    "C82_fma",
    "C82_matmul",
    "C82_matmul_transpose_a",
    "C82_matmul_transpose_b",
    "C82_matmul_transpose_ab",
    "C82_matvec",
    "C82_matvec_transpose",
    "C82_matvec_vector",
    "C82_matvec_vector_transpose",
    "C82_outcomes",
    "C82_error",
    "C82_matmul_error",
    "C82_matvec_error",
    "C82_exact",
    "C82_matmul_exact",
    "C82_transpose_a_error",
    "C82_transpose_b_error",
    "C82_transpose_ab_error"
   ],
   "note": "That matrixmultiply::sgemm satisfies the contract is not proved, as it is not in this repository; C82_naive, C82_loop and C82_fma show kernels that do."
  },
  {
   "property": "C83",
   "status": "proved",
   "theorems": [
    "C83_variance",
    "C83_std",
    "C83_axis",
    "C83_relative_refuted"
   ],
   "note": "C83_relative_refuted is the last sentence of the statement."
  },
  {
   "property": "C84",
   "status": "proved",
   "theorems": [
    "C84_sum",
    "C84_product",
    "C84_mean",
    "C84_sum_axis",
    "C84_product_axis",
    "C84_mean_axis",
    "C84_elementwise",
    "C84_transpose_a",
    "C84_transpose_b",
    "C84_transpose_ab",
    "C84_matvec",
    "C84_matvec_transpose"
   ],
   "note": "C82_matmul_exact is the case of matmul without a transpose. That matrixmultiply::sgemm is such a kernel is not proved, as it is not in this repository (see C82)."
  }
 ]
}