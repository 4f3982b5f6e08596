{
 "claims": [
  {
   "property": "C01",
   "status": "proved",
   "theorems": [
    "C01_size_constraint"
   ],
   "note": ""
  },
  {
   "property": "C02",
   "status": "proved",
   "theorems": [
    "C02_type_constraints"
   ],
   "note": ""
  },
  {
   "property": "C03",
   "status": "proved",
   "theorems": [
    "C03_size_constraint_batches"
   ],
   "note": ""
  },
  {
   "property": "C04",
   "status": "proved",
   "theorems": [
    "C04_labels_well_formed"
   ],
   "note": ""
  },
  {
   "property": "C05",
   "status": "proved",
   "theorems": [
    "C05_number_of_clusters"
   ],
   "note": ""
  },
  {
   "property": "C06",
   "status": "proved",
   "theorems": [
    "C06_any_neighbor_covers",
    "C06_any_neighbor_radius"
   ],
   "note": ""
  },
  {
   "property": "C07",
   "status": "proved",
   "theorems": [
    "C07_closest_covers_primary",
    "C07_closest_covers_all"
   ],
   "note": ""
  },
  {
   "property": "C08",
   "status": "proved",
   "theorems": [
    "C08_result_checks",
    "C08_all_assigned"
   ],
   "note": ""
  },
  {
   "property": "C09",
   "status": "proved",
   "theorems": [
    "C09_exact_sizes",
    "C09_others_unlabelled"
   ],
   "note": ""
  },
  {
   "property": "C10",
   "status": "proved",
   "theorems": [
    "C10_seed_and_nearest"
   ],
   "note": ""
  },
  {
   "property": "C11",
   "status": "proved",
   "theorems": [
    "C11_independent_maximal",
    "C11_seeds_found"
   ],
   "note": "Specification in SeedSpec.v; self-loops allowed; any allocation failure pattern for the first theorem."
  },
  {
   "property": "C12",
   "status": "proved",
   "theorems": [
    "C12_lexical",
    "C12_inwards_order",
    "C12_inwards_updating",
    "C12_exclusion_order",
    "C12_exclusion_updating"
   ],
   "note": "In the updating variants the minimum is over vertices that can still become seeds (exclusion) or are not yet covered (inwards); covered vertices are skipped by the code."
  },
  {
   "property": "C13",
   "status": "proved",
   "theorems": [
    "C13_two_arcs"
   ],
   "note": ""
  },
  {
   "property": "C14",
   "status": "proved",
   "theorems": [
    "C14_four_approximation"
   ],
   "note": ""
  },
  {
   "property": "C15",
   "status": "proved",
   "theorems": [
    "C15_closest_seed_primary",
    "C15_closest_seed_secondary"
   ],
   "note": ""
  },
  {
   "property": "C16",
   "status": "proved",
   "theorems": [
    "C16_groups_kept",
    "C16_assign_by_nng_only_adds",
    "C16_assign_by_search_only_adds"
   ],
   "note": ""
  },
  {
   "property": "C17",
   "status": "partial",
   "theorems": [
    "C17_primary_radius_refuted",
    "C17_primary_radius_partial",
    "C15_closest_seed_primary"
   ],
   "note": "The statement is false of the code: a point joins through the graph although it is outside the primary radius. It holds for SCC_UM_CLOSEST_SEED (C15_closest_seed_primary), and for all methods if the seed radius is no larger than the primary radius and there is no secondary stage."
  },
  {
   "property": "C18",
   "status": "proved",
   "theorems": [
    "C18_from_scratch"
   ],
   "note": ""
  },
  {
   "property": "C19",
   "status": "partial",
   "theorems": [
    "C19_duplicates_refuted",
    "C19_labels"
   ],
   "note": "The statement is false of the code when 2 * size_constraint or more points coincide: a point stays without label and a cluster is too small. It holds otherwise (C18_from_scratch)."
  },
  {
   "property": "C20",
   "status": "proved",
   "theorems": [
    "C20_nested"
   ],
   "note": ""
  },
  {
   "property": "C21",
   "status": "partial",
   "theorems": [
    "C21_buffer_refuted",
    "C22_safe"
   ],
   "note": "The statement is false of the code when the first cluster is larger than all others and is to be split; C22_safe covers the other clusterings."
  },
  {
   "property": "C22",
   "status": "proved",
   "theorems": [
    "C22_safe",
    "C22_succeeds",
    "C22_error_codes"
   ],
   "note": ""
  },
  {
   "property": "C23",
   "status": "proved",
   "theorems": [
    "C23_check_decides"
   ],
   "note": ""
  },
  {
   "property": "C24",
   "status": "proved",
   "theorems": [
    "C24_counts",
    "C24_returns"
   ],
   "note": ""
  },
  {
   "property": "C25",
   "status": "proved",
   "theorems": [
    "C25_min",
    "C25_max",
    "C25_single",
    "C25_infinite_refuted"
   ],
   "note": "C25_infinite_refuted shows that finiteness is needed: with overflowing distances min_dist is DBL_MAX."
  },
  {
   "property": "C26",
   "status": "proved",
   "theorems": [
    "C26_option_validation",
    "C26_default_rejected"
   ],
   "note": ""
  },
  {
   "property": "C27",
   "status": "proved",
   "theorems": [
    "C27_nearest_neighbours"
   ],
   "note": ""
  },
  {
   "property": "C28",
   "status": "proved",
   "theorems": [
    "C28_farthest"
   ],
   "note": ""
  },
  {
   "property": "C29",
   "status": "proved",
   "theorems": [
    "C29_distances",
    "C29_value",
    "C29_matrix"
   ],
   "note": ""
  },
  {
   "property": "C30",
   "status": "proved",
   "theorems": [
    "C30_delete_loops",
    "C30_union",
    "C30_difference",
    "C30_transpose",
    "C30_product",
    "C30_nub",
    "C30_valid",
    "C30_valid_converse"
   ],
   "note": "Adjacency-list specification in GraphSpec.v; both allocation paths, all failure patterns."
  },
  {
   "property": "C31",
   "status": "proved",
   "theorems": [
    "C31_union",
    "C31_product"
   ],
   "note": "Any two successful runs agree, whatever allocations failed in each."
  },
  {
   "property": "C32",
   "status": "proved",
   "theorems": [
    "C32_safe",
    "C32_undefined_only_after_failure"
   ],
   "note": ""
  },
  {
   "property": "C33",
   "status": "partial",
   "theorems": [
    "C33_zero_types_refuted",
    "C32_safe"
   ],
   "note": "The statement is false of the code when all type constraints are zero; C32_safe covers all other options."
  },
  {
   "property": "C34",
   "status": "partial",
   "theorems": [
    "C34_null_checked_partial",
    "C34_reported_partial",
    "C34_out_of_memory_ok_refuted",
    "C34_out_of_memory_null_refuted",
    "C34_out_of_memory_batches_refuted"
   ],
   "note": "The statement is false of the code. The partial theorems: options with which every failing allocation is survived without undefined behaviour, and options with which success implies the clusters of a run without failures. What else holds after failed allocations: C01-C05, C09, C10, C32_undefined_only_after_failure, C51."
  },
  {
   "property": "C35",
   "status": "partial",
   "theorems": [
    "C35_no_leak_partial",
    "C35_leak_refuted",
    "C35_hier_no_leak"
   ],
   "note": "scc_hierarchical_clustering never leaks. For scc_sc_clustering: The full statement is false of the code: a block is leaked after errors with exclusion graphs. Proved for successful calls, for the other seed methods, and without radius and primary points."
  },
  {
   "property": "C36",
   "status": "partial",
   "theorems": [
    "C36_reported_partial",
    "C36_search_failure_refuted"
   ],
   "note": "The statement is false of the code: failures of the secondary stage are dropped. Proved for calls without secondary stage."
  },
  {
   "property": "C37",
   "status": "partial",
   "theorems": [
    "C37_unchanged_refuted",
    "C37_still_valid",
    "C37_hier_unchanged_refuted",
    "C37_hier_still_valid"
   ],
   "note": "The statement is false of the code for both functions; the clustering stays a valid object."
  },
  {
   "property": "C38",
   "status": "proved",
   "theorems": [
    "C38_sc_reject",
    "C38_sc_invalid",
    "C38_hier_reject",
    "C38_check_reject",
    "C38_stats_reject"
   ],
   "note": ""
  },
  {
   "property": "C39",
   "status": "proved",
   "theorems": [
    "C39_batch_size",
    "C39_builtin_steady"
   ],
   "note": ""
  },
  {
   "property": "C40",
   "status": "partial",
   "theorems": [
    "C40_batch_buffer_refuted",
    "C32_safe"
   ],
   "note": "The statement is false of the code when size_constraint * batch_size exceeds 32 bits. When it does not, no access is out of bounds (C32_safe, whose hypothesis call_ok has this bound)."
  },
  {
   "property": "C41",
   "status": "proved",
   "theorems": [
    "C41_no_undefined_behaviour",
    "C41_nothing_left",
    "C41_storage_valid",
    "C41_user_arrays",
    "C41_sc_clustering",
    "C41_hierarchical",
    "C41_builtin"
   ],
   "note": ""
  },
  {
   "property": "C42",
   "status": "proved",
   "theorems": [
    "C42_copy_equal",
    "C42_copy_untouched",
    "C42_original_untouched"
   ],
   "note": ""
  },
  {
   "property": "C43",
   "status": "proved",
   "theorems": [
    "C43_labels"
   ],
   "note": ""
  },
  {
   "property": "C44",
   "status": "proved",
   "theorems": [
    "C44_existing",
    "C44_info",
    "C44_shared_write"
   ],
   "note": "With C43_labels, and C42_copy_untouched for deep copies."
  },
  {
   "property": "C45",
   "status": "proved",
   "theorems": [
    "C45_constructors",
    "C45_when",
    "C45_data_set"
   ],
   "note": ""
  },
  {
   "property": "C46",
   "status": "partial",
   "theorems": [
    "C46_enough_data",
    "C46_enough_data_refuted"
   ],
   "note": "Proved for 32-bit point indices, including the default. False of the code with 64-bit point indices, where the product wraps."
  },
  {
   "property": "C47",
   "status": "partial",
   "theorems": [
    "C47_message",
    "C47_message_unique",
    "C47_no_buffer",
    "C47_latest",
    "C47_hierarchical",
    "C47_sc_clustering_partial",
    "C47_unaffected_refuted"
   ],
   "note": "A successful scc_sc_clustering may erase the earlier error or leave one of its own, so that part of the statement is false of the code. The other calls leave it alone (C47_latest, C47_hierarchical, C23_check_decides, C24_returns, C45_data_set)."
  },
  {
   "property": "C48",
   "status": "proved",
   "theorems": [
    "C48_max_functions",
    "C48_nn_functions",
    "C48_single_functions"
   ],
   "note": ""
  },
  {
   "property": "C49",
   "status": "partial",
   "theorems": [
    "C49_returns_false",
    "C49_unchanged_partial",
    "C49_unchanged_refuted"
   ],
   "note": "The statement is false of the code: functions set before the rejection stay replaced."
  },
  {
   "property": "C50",
   "status": "proved",
   "theorems": [
    "C50_succeeds"
   ],
   "note": ""
  },
  {
   "property": "C51",
   "status": "proved",
   "theorems": [
    "C51_error_codes"
   ],
   "note": ""
  },
  {
   "property": "C52",
   "status": "proved",
   "theorems": [
    "C52_sums"
   ],
   "note": ""
  },
  {
   "property": "C53",
   "status": "proved",
   "theorems": [
    "C53_hier",
    "C53_stats"
   ],
   "note": ""
  },
  {
   "property": "C54",
   "status": "proved",
   "theorems": [
    "C54_hier",
    "C54_check",
    "C54_stats",
    "C54_builtin"
   ],
   "note": ""
  },
  {
   "property": "C55",
   "status": "proved",
   "theorems": [
    "C55_procedure"
   ],
   "note": ""
  },
  {
   "property": "C56",
   "status": "proved",
   "theorems": [
    "C56_procedure_batches"
   ],
   "note": ""
  },
  {
   "property": "C57",
   "status": "proved",
   "theorems": [
    "C57_closest_assigned_primary",
    "C57_closest_assigned_secondary",
    "C57_any_neighbor"
   ],
   "note": ""
  },
  {
   "property": "C58",
   "status": "proved",
   "theorems": [
    "C58_type_groups"
   ],
   "note": ""
  },
  {
   "property": "C59",
   "status": "proved",
   "theorems": [
    "C59_seed_and_nearest_batches"
   ],
   "note": ""
  },
  {
   "property": "C60",
   "status": "proved",
   "theorems": [
    "C60_determined"
   ],
   "note": ""
  },
  {
   "property": "C61",
   "status": "proved",
   "theorems": [
    "C61_procedure"
   ],
   "note": ""
  },
  {
   "property": "C62",
   "status": "proved",
   "theorems": [
    "C62_determined"
   ],
   "note": ""
  },
  {
   "property": "C63",
   "status": "proved",
   "theorems": [
    "C63_groups",
    "C63_groups_batches_refuted",
    "C63_three_groups_refuted"
   ],
   "note": "The refuted theorems show that the restriction to two groups and to assignment without batches is needed."
  },
  {
   "property": "C64",
   "status": "proved",
   "theorems": [
    "C64_inwards_updating_stable",
    "C64_exclusion_updating_stable"
   ],
   "note": ""
  },
  {
   "property": "C65",
   "status": "proved",
   "theorems": [
    "C65_lowest_neighbor",
    "C65_closest_assigned_refuted"
   ],
   "note": "C65_closest_assigned_refuted is the second sentence: a run in which the closest assigned point is not picked."
  },
  {
   "property": "C66",
   "status": "proved",
   "theorems": [
    "C66_stats",
    "C66_exact",
    "C66_call",
    "C66_four_times"
   ],
   "note": ""
  },
  {
   "property": "C67",
   "status": "proved",
   "theorems": [
    "C67_stats",
    "C67_call"
   ],
   "note": ""
  },
  {
   "property": "C68",
   "status": "proved",
   "theorems": [
    "C68_open",
    "C68_search",
    "C68_close"
   ],
   "note": ""
  },
  {
   "property": "C69",
   "status": "proved",
   "theorems": [
    "C69_clustering",
    "C69_contract",
    "C69_others"
   ],
   "note": ""
  },
  {
   "property": "C70",
   "status": "partial",
   "theorems": [
    "C70_partial",
    "C70_leak",
    "C70_refuted",
    "C70_failure_refuted"
   ],
   "note": "Proved for point indices that are not int when no allocation fails. Otherwise false of the code."
  },
  {
   "property": "C71",
   "status": "proved",
   "theorems": [
    "C71_sizes",
    "C71_numbers"
   ],
   "note": ""
  },
  {
   "property": "C72",
   "status": "proved",
   "theorems": [
    "C72_repeatable",
    "C72_builtin"
   ],
   "note": ""
  },
  {
   "property": "C73",
   "status": "proved",
   "theorems": [
    "C73_from_string",
    "C73_copy",
    "C73_from_pieces",
    "C73_equal",
    "C73_balanced",
    "C73_print",
    "C73_matrix",
    "C73_equal_unchecked_refuted"
   ],
   "note": "C73_equal_unchecked_refuted shows that the comparison needs its allocation to succeed."
  },
  {
   "property": "C74",
   "status": "proved",
   "theorems": [
    "C74_refine",
    "C74_call",
    "C74_check",
    "C74_again",
    "C74_again_call",
    "C74_check_scratch",
    "C74_first_refuted"
   ],
   "note": "Under the condition on the first cluster that is part of the statement; C74_first_refuted shows that it is needed."
  },
  {
   "property": "C75",
   "status": "proved",
   "theorems": [
    "C75_repeatable",
    "C75_survives",
    "C75_builtin"
   ],
   "note": ""
  },
  {
   "property": "C76",
   "status": "proved",
   "theorems": [
    "C76_sc",
    "C76_hierarchical",
    "C76_check",
    "C76_builtin",
    "C76_ann"
   ],
   "note": ""
  },
  {
   "property": "C77",
   "status": "partial",
   "theorems": [
    "C77_partial",
    "C77_refuted"
   ],
   "note": "Proved for 32-bit index types and clusters of at most 2^31 points; C77_refuted is a run with a larger cluster in which the size wraps."
  },
  {
   "property": "C78",
   "status": "proved",
   "theorems": [
    "C78_sc",
    "C78_hierarchical",
    "C78_mirrored",
    "C78_padded",
    "C78_exchanged",
    "C78_moved_refuted"
   ],
   "note": "C78_moved_refuted is the last sentence of the statement. For hierarchical clustering the sort function is assumed to depend on the sorted elements only."
  },
  {
   "property": "C79",
   "status": "proved",
   "theorems": [
    "C79_order",
    "C79_estimate_refuted"
   ],
   "note": "C79_estimate_refuted is the last sentence of the statement."
  },
  {
   "property": "C80",
   "status": "proved",
   "theorems": [
    "C80_exact",
    "C80_sc",
    "C80_hierarchical",
    "C80_moved",
    "C80_permuted",
    "C80_multiple"
   ],
   "note": "C80_moved and C80_permuted give the hypothesis of C80_sc and C80_hierarchical for moved points and reordered coordinates. For hierarchical clustering the sort function is assumed to depend on the sorted elements only."
  },
  {
   "property": "C81",
   "status": "proved",
   "theorems": [
    "C81_reach",
    "C81_reach_succeeds",
    "C81_wide",
    "C81_seed_radius"
   ],
   "note": ""
  },
  {
   "property": "C82",
   "status": "proved",
   "theorems": [
    "C82_renamed",
    "C82_renamed_succeeds",
    "C82_exchanged_refuted"
   ],
   "note": "C82_exchanged_refuted is the sentence on exchanged types without SCC_STABLE_NNG."
  },
  {
   "property": "C83",
   "status": "proved",
   "theorems": [
    "C83_primary",
    "C83_secondary"
   ],
   "note": ""
  },
  {
   "property": "C84",
   "status": "proved",
   "theorems": [
    "C84_secondary",
    "C84_primary",
    "C84_moved_refuted"
   ],
   "note": "C84_moved_refuted is the last sentence of the statement."
  },
  {
   "property": "C85",
   "status": "proved",
   "theorems": [
    "C85_order",
    "C85_order_of_each_point_refuted"
   ],
   "note": "C85_order_of_each_point_refuted is the last sentence of the statement."
  },
  {
   "property": "C86",
   "status": "proved",
   "theorems": [
    "C86_check",
    "C86_check_returns",
    "C86_stats",
    "C86_sum_refuted"
   ],
   "note": "C86_sum_refuted is the last sentence of the statement."
  },
  {
   "property": "C87",
   "status": "proved",
   "theorems": [
    "C87_neighbours",
    "C87_closest",
    "C87_seedable",
    "C87_primary_refuted",
    "C87_types_refuted",
    "C87_small_refuted"
   ],
   "note": "The refutations are the last sentence of the statement."
  },
  {
   "property": "C88",
   "status": "proved",
   "theorems": [
    "C88_found",
    "C88_succeeds",
    "C88_one_cluster",
    "C88_large_refuted"
   ],
   "note": "C88_large_refuted is the last sentence of the statement."
  },
  {
   "property": "C89",
   "status": "proved",
   "theorems": [
    "C89_methods",
    "C89_secondary",
    "C89_moved_refuted"
   ],
   "note": "C89_moved_refuted is the last sentence of the statement."
  },
  {
   "property": "C90",
   "status": "proved",
   "theorems": [
    "C90_found",
    "C90_two",
    "C90_succeeds",
    "C90_as_sc",
    "C90_batches_refuted"
   ],
   "note": "C90_batches_refuted is the last sentence of the statement."
  },
  {
   "property": "C91",
   "status": "proved",
   "theorems": [
    "C91_order",
    "C91_reversed",
    "C91_twice",
    "C91_empty_refuted"
   ],
   "note": "C91_empty_refuted is the last sentence of the statement."
  },
  {
   "property": "C92",
   "status": "proved",
   "theorems": [
    "C92_order",
    "C92_first",
    "C92_zero",
    "C92_other_refuted"
   ],
   "note": "C92_other_refuted is the last sentence of the statement."
  }
 ]
}