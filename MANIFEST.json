{
 "claims": [
  {
   "property": "C01",
   "status": "proved",
   "theorems": [
    "C01_support_exact"
   ],
   "note": "tail ids non-negative; negative tail ids are C02"
  },
  {
   "property": "C02",
   "status": "proved",
   "theorems": [
    "C02_bind_outcomes",
    "C02_negative_tail_accepted"
   ],
   "note": ""
  },
  {
   "property": "C03",
   "status": "proved",
   "theorems": [
    "C03_collapse_agree"
   ],
   "note": ""
  },
  {
   "property": "C04",
   "status": "proved",
   "theorems": [
    "C04_rule_identity",
    "C04_pickle_round_trip"
   ],
   "note": ""
  },
  {
   "property": "C05",
   "status": "proved",
   "theorems": [
    "C05_distance_is_jaccard"
   ],
   "note": ""
  },
  {
   "property": "C06",
   "status": "proved",
   "theorems": [
    "C06_triangle"
   ],
   "note": ""
  },
  {
   "property": "C07",
   "status": "proved",
   "theorems": [
    "C07_distance_defined"
   ],
   "note": ""
  },
  {
   "property": "C08",
   "status": "proved",
   "theorems": [
    "C08_rates",
    "C08_KL",
    "C08_KL_increasing"
   ],
   "note": ""
  },
  {
   "property": "C09",
   "status": "proved",
   "theorems": [
    "C09_marginal_coverage_exact",
    "C09_marginal_coverage_laws"
   ],
   "note": ""
  },
  {
   "property": "C10",
   "status": "proved",
   "theorems": [
    "C10_coverage_exact",
    "C10_coverage_order_free",
    "C10_coverage_telescopes"
   ],
   "note": ""
  },
  {
   "property": "C11",
   "status": "proved",
   "theorems": [
    "C11_predict_exact",
    "C11_predict_label_out_of_range"
   ],
   "note": ""
  },
  {
   "property": "C12",
   "status": "proved",
   "theorems": [
    "C12_predict_rule_set",
    "C12_predict_local_monotone"
   ],
   "note": ""
  },
  {
   "property": "C13",
   "status": "proved",
   "theorems": [
    "C13_pickle_preserves",
    "C13_unpickled_coverage_unavailable"
   ],
   "note": ""
  },
  {
   "property": "C14",
   "status": "proved",
   "theorems": [
    "C14_search_exact"
   ],
   "note": ""
  },
  {
   "property": "C15",
   "status": "proved",
   "theorems": [
    "C15_subsets_exact"
   ],
   "note": ""
  },
  {
   "property": "C16",
   "status": "proved",
   "theorems": [
    "C16_supersets_exact"
   ],
   "note": ""
  },
  {
   "property": "C17",
   "status": "proved",
   "theorems": [
    "C17_unpopulated_as_None",
    "C17_late_insert_lost"
   ],
   "note": ""
  },
  {
   "property": "C18",
   "status": "proved",
   "theorems": [
    "C18_binary_search",
    "C18_nodes_agree",
    "C18_has_child_exact"
   ],
   "note": ""
  },
  {
   "property": "C19",
   "status": "proved",
   "theorems": [
    "C19_pretti_exact",
    "C19_pretti_out_of_range"
   ],
   "note": ""
  },
  {
   "property": "C20",
   "status": "proved",
   "theorems": [
    "C20_trie_exact",
    "C20_strategies_agree"
   ],
   "note": ""
  },
  {
   "property": "C21",
   "status": "proved",
   "theorems": [
    "C21_confidence_graph"
   ],
   "note": ""
  },
  {
   "property": "C22",
   "status": "proved",
   "theorems": [
    "C22_noisy_or",
    "C22_one_way_edge_fails"
   ],
   "note": ""
  },
  {
   "property": "C23",
   "status": "proved",
   "theorems": [
    "C23_enumeration_exact"
   ],
   "note": ""
  },
  {
   "property": "C24",
   "status": "proved",
   "theorems": [
    "C24_same_cliques",
    "C24_unknown_backend"
   ],
   "note": ""
  },
  {
   "property": "C25",
   "status": "proved",
   "theorems": [
    "C25_sample_space",
    "C25_shrinks"
   ],
   "note": ""
  },
  {
   "property": "C26",
   "status": "proved",
   "theorems": [
    "C26_sample_clique",
    "C26_selfloop_diverges"
   ],
   "note": ""
  },
  {
   "property": "C27",
   "status": "proved",
   "theorems": [
    "C27_weights_exact"
   ],
   "note": ""
  },
  {
   "property": "C28",
   "status": "proved",
   "theorems": [
    "C28_stops_when_covered"
   ],
   "note": ""
  },
  {
   "property": "C29",
   "status": "proved",
   "theorems": [
    "C29_proportional",
    "C29_fitted"
   ],
   "note": ""
  },
  {
   "property": "C30",
   "status": "proved",
   "theorems": [
    "C30_naive_vs_fast"
   ],
   "note": ""
  },
  {
   "property": "C31",
   "status": "proved",
   "theorems": [
    "C31_refit_breaks"
   ],
   "note": ""
  },
  {
   "property": "C32",
   "status": "proved",
   "theorems": [
    "C32_usable_pair",
    "C32_head_sample",
    "C32_fresh_fit"
   ],
   "note": ""
  },
  {
   "property": "C33",
   "status": "proved",
   "theorems": [
    "C33_coalesced",
    "C33_full_horizon"
   ],
   "note": ""
  },
  {
   "property": "C34",
   "status": "proved",
   "theorems": [
    "C34_exact"
   ],
   "note": ""
  },
  {
   "property": "C35",
   "status": "proved",
   "theorems": [
    "C35_boley",
    "C35_dominates"
   ],
   "note": ""
  },
  {
   "property": "C36",
   "status": "proved",
   "theorems": [
    "C36_head_law",
    "C36_ground_truth"
   ],
   "note": ""
  },
  {
   "property": "C37",
   "status": "proved",
   "theorems": [
    "C37_bookkeeping",
    "C37_none"
   ],
   "note": ""
  },
  {
   "property": "C38",
   "status": "proved",
   "theorems": [
    "C38_count",
    "C38_uniform",
    "C38_sampler",
    "C38_ground_truth",
    "C38_fresh_fit"
   ],
   "note": ""
  },
  {
   "property": "C39",
   "status": "proved",
   "theorems": [
    "C39_frequency",
    "C39_area"
   ],
   "note": ""
  },
  {
   "property": "C40",
   "status": "proved",
   "theorems": [
    "C40_candidates",
    "C40_candidates_returned"
   ],
   "note": ""
  },
  {
   "property": "C41",
   "status": "proved",
   "theorems": [
    "C41_best_candidate"
   ],
   "note": ""
  },
  {
   "property": "C42",
   "status": "proved",
   "theorems": [
    "C42_budget",
    "C42_same_for_every_bound"
   ],
   "note": ""
  },
  {
   "property": "C43",
   "status": "proved",
   "theorems": [
    "C43_tolerance",
    "C43_negative_tolerance_runs_forever"
   ],
   "note": ""
  },
  {
   "property": "C44",
   "status": "proved",
   "theorems": [
    "C44_better_round_worse_objective"
   ],
   "note": ""
  },
  {
   "property": "C45",
   "status": "proved",
   "theorems": [
    "C45_objective_is_diversity",
    "C45_reported"
   ],
   "note": ""
  },
  {
   "property": "C46",
   "status": "proved",
   "theorems": [
    "C46_refit_extends",
    "C46_refit_divmax"
   ],
   "note": ""
  },
  {
   "property": "C47",
   "status": "proved",
   "theorems": [
    "C47_none_head",
    "C47_constant_tail",
    "C47_generation_errors",
    "C47_no_candidates",
    "C47_loop_error_is_fit_error",
    "C47_nothing_to_sample",
    "C47_exhaustive"
   ],
   "note": ""
  },
  {
   "property": "C48",
   "status": "proved",
   "theorems": [
    "C48_objectives",
    "C48_coverage_antitone"
   ],
   "note": ""
  },
  {
   "property": "C49",
   "status": "proved",
   "theorems": [
    "C49_values",
    "C49_bounds",
    "C49_dual",
    "C49_perfect",
    "C49_shape_errors",
    "C49_report",
    "C49_unusual"
   ],
   "note": ""
  },
  {
   "property": "C50",
   "status": "proved",
   "theorems": [
    "C50_counts",
    "C50_edges",
    "C50_edge_errors",
    "C50_report"
   ],
   "note": ""
  },
  {
   "property": "C51",
   "status": "proved",
   "theorems": [
    "C51_shapes",
    "C51_split",
    "C51_names",
    "C51_set_data",
    "C51_graph",
    "C51_numbers",
    "C51_connectivity"
   ],
   "note": ""
  },
  {
   "property": "C52",
   "status": "proved",
   "theorems": [
    "C52_mirror",
    "C52_law",
    "C52_not_held_out",
    "C52_errors"
   ],
   "note": ""
  },
  {
   "property": "C53",
   "status": "proved",
   "theorems": [
    "C53_round_trip",
    "C53_out_of_range",
    "C53_versions"
   ],
   "note": ""
  },
  {
   "property": "C54",
   "status": "proved",
   "theorems": [
    "C54_explicit_zero"
   ],
   "note": ""
  },
  {
   "property": "C55",
   "status": "proved",
   "theorems": [
    "C55_powerset"
   ],
   "note": ""
  },
  {
   "property": "C56",
   "status": "proved",
   "theorems": [
    "C56_permutations",
    "C56_order_deterministic",
    "C56_missing_right"
   ],
   "note": ""
  },
  {
   "property": "C57",
   "status": "proved",
   "theorems": [
    "C57_blocks",
    "C57_blocked_clusters"
   ],
   "note": ""
  },
  {
   "property": "C58",
   "status": "proved",
   "theorems": [
    "C58_greedy",
    "C58_reachable",
    "C58_law",
    "C58_no_labels"
   ],
   "note": ""
  },
  {
   "property": "C59",
   "status": "proved",
   "theorems": [
    "C59_choice",
    "C59_result_unique",
    "C59_prune",
    "C59_cftp"
   ],
   "note": ""
  },
  {
   "property": "C60",
   "status": "proved",
   "theorems": [
    "C60_factories",
    "C60_versions",
    "C60_cftp_sampler"
   ],
   "note": ""
  },
  {
   "property": "C61",
   "status": "proved",
   "theorems": [
    "C61_frequency"
   ],
   "note": ""
  },
  {
   "property": "C62",
   "status": "proved",
   "theorems": [
    "C62_adjacency"
   ],
   "note": ""
  },
  {
   "property": "C63",
   "status": "proved",
   "theorems": [
    "C63_low_rank"
   ],
   "note": ""
  },
  {
   "property": "C64",
   "status": "proved",
   "theorems": [
    "C64_frequencies"
   ],
   "note": ""
  },
  {
   "property": "C65",
   "status": "proved",
   "theorems": [
    "C65_results",
    "C65_errors",
    "C65_train_and_eval"
   ],
   "note": ""
  },
  {
   "property": "C66",
   "status": "proved",
   "theorems": [
    "C66_diverse_generator"
   ],
   "note": ""
  },
  {
   "property": "C67",
   "status": "proved",
   "theorems": [
    "C67_plain_generator"
   ],
   "note": ""
  },
  {
   "property": "C68",
   "status": "proved",
   "theorems": [
    "C68_rules_independent"
   ],
   "note": ""
  },
  {
   "property": "C69",
   "status": "proved",
   "theorems": [
    "C69_sparse"
   ],
   "note": ""
  },
  {
   "property": "C70",
   "status": "proved",
   "theorems": [
    "C70_dense",
    "C70_row_error",
    "C70_last_char",
    "C70_left_width"
   ],
   "note": ""
  },
  {
   "property": "C71",
   "status": "proved",
   "theorems": [
    "C71_binary",
    "C71_zeros",
    "C71_one_hot"
   ],
   "note": ""
  },
  {
   "property": "C72",
   "status": "proved",
   "theorems": [
    "C72_genbase"
   ],
   "note": ""
  },
  {
   "property": "C73",
   "status": "proved",
   "theorems": [
    "C73_density",
    "C73_errors"
   ],
   "note": ""
  },
  {
   "property": "C74",
   "status": "proved",
   "theorems": [
    "C74_prepared",
    "C74_genbase",
    "C74_split"
   ],
   "note": ""
  },
  {
   "property": "C75",
   "status": "proved",
   "theorems": [
    "C75_groups"
   ],
   "note": ""
  },
  {
   "property": "C76",
   "status": "proved",
   "theorems": [
    "C76_between",
    "C76_likelier"
   ],
   "note": ""
  },
  {
   "property": "C77",
   "status": "proved",
   "theorems": [
    "C77_search"
   ],
   "note": ""
  },
  {
   "property": "C78",
   "status": "proved",
   "theorems": [
    "C78_pcv"
   ],
   "note": ""
  },
  {
   "property": "C79",
   "status": "proved",
   "theorems": [
    "C79_orbit",
    "C79_few",
    "C79_periodic",
    "C79_repeatable"
   ],
   "note": ""
  },
  {
   "property": "C80",
   "status": "proved",
   "theorems": [
    "C80_dummy"
   ],
   "note": ""
  },
  {
   "property": "C81",
   "status": "proved",
   "theorems": [
    "C81_equal",
    "C81_nested_tuple",
    "C81_tuple_misses_end_marks"
   ],
   "note": ""
  },
  {
   "property": "C82",
   "status": "proved",
   "theorems": [
    "C82_conversion",
    "C82_toy",
    "C82_genbase",
    "C82_mlrl",
    "C82_prepared",
    "C82_dense_pair",
    "C82_split",
    "C82_toy_data"
   ],
   "note": "Loading by name over arbitrary file contents; mlrl is a parameter.  Matrices without rows get 0 columns, so the split theorem is for at least two rows."
  },
  {
   "property": "C83",
   "status": "proved",
   "theorems": [
    "C83_similarity",
    "C83_adviser",
    "C83_three"
   ],
   "note": "The range of the loop in sortSet starts at 2, so position 1 is never tried (C83_three).  Quotients are exact."
  },
  {
   "property": "C84",
   "status": "proved",
   "theorems": [
    "C84_truth",
    "C84_pair_law"
   ],
   "note": "Both classes have the same two functions; they are modelled once, on the state that both keep.  Quotients are exact."
  },
  {
   "property": "C85",
   "status": "proved",
   "theorems": [
    "C85_iterations",
    "C85_sampler"
   ],
   "note": "Modelled with return_sample_index=True; the content of the sample is an index into the sample space (C36).  Draws are exact reals."
  },
  {
   "property": "C86",
   "status": "proved",
   "theorems": [
    "C86_samplers",
    "C86_cftp",
    "C86_discrim"
   ],
   "note": "The lists U, V kept by CFTP are threaded between calls; each call resets them.  Draws are exact reals."
  },
  {
   "property": "C87",
   "status": "proved",
   "theorems": [
    "C87_sequential",
    "C87_created_before",
    "C87_first_use"
   ],
   "note": "Each mlflow call is one atomic step on a shared map from names to ids; MlflowException is modelled as GenericException."
  },
  {
   "property": "C88",
   "status": "proved",
   "theorems": [
    "C88_one_round",
    "C88_two_rounds",
    "C88_scored",
    "C88_half_refuted"
   ],
   "note": "The value of a list of rules is the sum of what each rule adds in turn; quality, KL and Jaccard distance are exact reals.  C88_half_refuted gives a witness against the factor 1/2."
  },
  {
   "property": "C89",
   "status": "proved",
   "theorems": [
    "C89_subgraph_stat",
    "C89_sampled_cliques"
   ],
   "note": "The edges counted by is_clique are those of the subgraph of the DiGraph class the caller passes; weights are exact rationals."
  },
  {
   "property": "C90",
   "status": "proved",
   "theorems": [
    "C90_binding",
    "C90_calls",
    "C90_search",
    "C90_setups"
   ],
   "note": "ray, mlflow and the writing of results are not modelled; NameError at module level is given as its subclass UnboundLocalError; decimal literals are exact rationals."
  },
  {
   "property": "C91",
   "status": "proved",
   "theorems": [
    "C91_complete",
    "C91_complete_divmax",
    "C91_sequences",
    "C91_crash"
   ],
   "note": "One sequence of reals in [0,1) supplies all draws (inverse of the cumulative probabilities); exact arithmetic. The conditions under which the head sampler returns None (CFTP not coalesced after its last attempt) are in C35-C37."
  },
  {
   "property": "C92",
   "status": "proved",
   "theorems": [
    "C92_trial",
    "C92_held_out",
    "C92_errors",
    "C92_n_heads"
   ],
   "note": "The measured times are left out of the results. The samplers of the classifiers are parameters (as in C65)."
  },
  {
   "property": "C93",
   "status": "proved",
   "theorems": [
    "C93_rows",
    "C93_ranked",
    "C93_errors"
   ],
   "note": "sort_values is a parameter with the contract that it rearranges the rows in descending order, so the order of equal averages is open. mlflow search_runs is modelled as a filter."
  },
  {
   "property": "C94",
   "status": "proved",
   "theorems": [
    "C94_matrix_equal",
    "C94_shapes",
    "C94_sets",
    "C94_product"
   ],
   "note": "Values are integers. The inequality of scipy is modelled as an element-wise operation on equal shapes and as True otherwise."
  },
  {
   "property": "C95",
   "status": "proved",
   "theorems": [
    "C95_makedir",
    "C95_save_load",
    "C95_save_file",
    "C95_tempdir"
   ],
   "note": "Paths are lists of components without '.', '..', links and permissions; the subclasses of OSError are not distinguished. The formats json and pickle are parameters (dumps, loads). A failed dump leaves the file empty in the model; really it may hold a part of the output. The name tempfile.mkdtemp chooses is a parameter that is unused in its directory."
  },
  {
   "property": "C96",
   "status": "proved",
   "theorems": [
    "C96_training_scores",
    "C96_fitted",
    "C96_learned"
   ],
   "note": "Scores are exact rationals, the coverage ratio an exact real; floats would round. At least two label columns, since sklearn reads a one-column matrix as a different target type."
  },
  {
   "property": "C97",
   "status": "proved",
   "theorems": [
    "C97_dummy"
   ],
   "note": "np.random.randint is idealised: independent, exactly uniform draws."
  }
 ]
}