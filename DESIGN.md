# Formal model of CORSET: design, as built

Everything lives in `rocq/theories` (logical root `Verif`), in four layers:

| layer | directory | contents |
|---|---|---|
| model | `Model/` | the Python code, function by function, as total Gallina functions; every definition cites file and lines and says what it simplifies |
| specification | `Spec/` | what the answers should be, written without using the model's helpers |
| proofs | `Proofs/` | `P*.v` are lemma libraries, `T_*.v` hold the proof of each property (`Cxx_name_proof`) |
| properties | `Properties/` | `P_*.v` state the theorems (`Cxx_name`), close them with `exact`, run `Print Assumptions` on each, and give concrete non-trivial instances (`Example`) |

How to check: `cd rocq && coq_makefile -f _CoqProject -o Makefile && make -j4`.

## Modelling decisions

* **Python `int`** is `Z`.  Indexing (`py_index`) wraps negative indices and raises `IndexError`, slicing (`py_slice`)
  clamps, as CPython and numpy do for 1-d sequences.  Machine-integer overflow (int32 and int64 arrays) is not modelled.
* **Exceptions** are values: `result A := Ok a | Err exn`.  Stateful code (`PyState.sx`) keeps the state when it raises.
* **Python `set`/`dict`** are `gset`/`gmap` of std++, or association lists where insertion order matters.  When the iteration
  order of a set can influence a result, the order is a parameter `ord` whose only hypothesis is that it enumerates the
  set (a permutation of `elements`), and theorems quantify over it.  Simplification: the order is a function of the set's contents.
* **scipy sparse matrices** are compressed triples (`indptr`, `indices`, `data`) with a shape.  Explicitly stored zeros and unsorted or
  duplicate indices are representable; well-formedness is an explicit hypothesis of the theorems that need it, and the
  conversions (`tocsc`, `tocsr`, lil to csr) are modelled and proved to produce well-formed matrices.
* **Floats** are exact: rationals `Qc` or reals `R`.  Rounding, overflow, and `float32` in `dfs.pyx` are not modelled.  A nan or an infinity is
  the explicit outcome `NonFinite` where the code can produce one.
* **Randomness** is explicit.  `Model/Rand.v` has finite choices with rational weights, `Model/RandR.v` uniform reals.  Safety theorems
  quantify over every outcome; distribution theorems compute the exact probability (finite sums, and the Riemann integral of
  Coquelicot for uniform `[0,1]` draws).  Only C79 models the generator itself (an arbitrary state machine), because it is about seeding.
* **Loops** `while True` get fuel; running out of fuel is the explicit outcome `OutOfFuel`.  Theorems either exclude it,
  or show it for every fuel (non-termination).
* **Trie parent pointers** (used only to rebuild the set of a node) are modelled by passing the path down.
* **Samplers inside the greedy classifiers** are arbitrary state machines (`Greedy.samplers`), so every sampler and every random outcome is covered. `Complete.v` instantiates them with the samplers the GreedyCFTP* classes construct; the random numbers are then a sequence of reals in [0,1), one per draw (C91).
* **Third-party functions** (numpy, scipy, networkx, scikit-learn 1.0, sortedcontainers, itertools) are modelled by their documented behaviour at the calls the code
  makes; each such definition says so in its comment.  This is part of the trusted base.

## What is modelled, and what is not

Modelled: `corset/rule.py`, `utils.py`, `utils_data.py`, `graph.py`, `data.py`, `evaluation.py`, `exp.py`,
`exceptions.py`, `trie/`, `PRETTI/`, `greedy/`, `samplers/` (all but `pc_auc.py`), `biclus_viz/PlotCreator.py` (computing methods),
`biclus_viz/includes/pcv/` (but for the projection and KMeans), the synthetic generators, the ARFF readers and the scripts
(`scripts/*.py`; the trial suggestions of optuna and the records of MLflow are parameters).

Not modelled:

* `corset/samplers/pc_auc.py`: it is not valid Python (SyntaxError at line 107), so it has no behaviour;
* matplotlib drawing (`plotClusteredMatrix`, `plotOriginalMatrix`, `show_subgraph`, `viz_utils.py`), logging, `__repr__` and `summary` strings;
* MLflow, pandas, optuna beyond the calls the scripts make, and the byte formats of pickle and json (parameters of `save_*`, `load_*`); pickling is
  modelled by `__getstate__`/`__setstate__`;
* SVD projection and scikit-learn's KMeans in `ProjCluster.py` (the labels they return are an argument);
* the third-party reader of mlrl/MULAN files (what it returns is an argument);
* wall-clock time, memory, and the tests.

## Trusted base

1. The kernel of Coq 8.16.1 (checked again by `coqchk`), with no kernel check switched off.
2. The axioms `Print Assumptions` lists, all from the standard library, reproduced for every theorem in the table below:
   * **D** `ClassicalDedekindReals.sig_forall_dec`,
   * **N** `ClassicalDedekindReals.sig_not_dec`,
   * **F** `FunctionalExtensionality.functional_extensionality_dep`,
   * **C** `Classical_Prop.classic`.

   They come with the real numbers `R` and with Coquelicot's integral.  "closed" means *Closed under the global context*.  `coqchk`, which
   looks at every loaded module and not at what a theorem uses, also lists the sealed constants of `Coq.Reals.Rdefinitions` (`RbaseSymbolsImpl.*`, `RinvImpl.*`) and
   `Coq.ssr.ssrunder.Under_rel.*`: module-type fields that have implementations, not axioms a theorem rests on.
3. The libraries std++ and Coquelicot (with mathcomp underneath) supply definitions and proofs, no axioms.
4. The correspondence between the Python text and `Model/`, including the third-party functions.  It was checked by reading; the comments
   give the lines.  `seeded/LOG.jsonl` records edits of the model that mimic bugs and the theorems that then failed.

No axiom, parameter, module functor, admitted proof or plugin is added.

## Status

Every property is proved in full unless its row says otherwise.  Properties C64 onwards were added while the model grew.

| id | property | file | theorems (axioms) |
|---|---|---|---|
| C01 | Rule support is exactly the matching rows — tail ids non-negative; negative tail ids are C02 | `P_Rule` | `C01_support_exact` (closed) |
| C02 | bind_dataset rejects exactly the invalid heads | `P_Rule` | `C02_bind_outcomes` (closed); `C02_negative_tail_accepted` (closed) |
| C03 | The two conjunctive-collapse implementations and support_size agree | `P_Rule` | `C03_collapse_agree` (closed) |
| C04 | Rule identity is itemset identity | `P_Rule` | `C04_rule_identity` (closed); `C04_pickle_round_trip` (closed) |
| C05 | Rule distance is the Jaccard distance between covered label cells | `P_Rule` | `C05_distance_is_jaccard` (DF) |
| C06 | Rule distance satisfies the triangle inequality | `P_Rule` | `C06_triangle` (DF) |
| C07 | Rule distance fails exactly when both rules cover nothing | `P_Rule` | `C07_distance_defined` (DF) |
| C08 | Quality scores of a bound rule are well-defined | `P_Rule` | `C08_rates` (DF); `C08_KL` (CDFN); `C08_KL_increasing` (CDFN) |
| C09 | Marginal coverage counts newly covered cells and is submodular | `P_Rule` | `C09_marginal_coverage_exact` (closed); `C09_marginal_coverage_laws` (closed) |
| C10 | coverage_ratio is the covered fraction and telescopes | `P_GreedyBase` | `C10_coverage_exact` (DF); `C10_coverage_order_free` (DF); `C10_coverage_telescopes` (DF) |
| C11 | predict fires a label iff some rule's head is contained | `P_GreedyBase` | `C11_predict_exact` (closed); `C11_predict_label_out_of_range` (closed) |
| C12 | predict is order-free, duplicate-free, row-local and monotone | `P_GreedyBase` | `C12_predict_rule_set` (closed); `C12_predict_local_monotone` (closed) |
| C13 | Pickling a classifier preserves predictions | `P_GreedyBase` | `C13_pickle_preserves` (DF); `C13_unpickled_coverage_unavailable` (DF) |
| C14 | Trie exact search is set membership | `P_Trie` | `C14_search_exact` (closed) |
| C15 | Trie subset search returns exactly the stored subsets | `P_Trie` | `C15_subsets_exact` (closed) |
| C16 | Trie superset search returns exactly the stored supersets | `P_Trie` | `C16_supersets_exact` (closed) |
| C17 | Sets inserted after the last insert_batch are reported as None | `P_Trie` | `C17_unpopulated_as_None` (closed); `C17_late_insert_lost` (closed) |
| C18 | Binary search and the two Node classes agree | `P_Trie` | `C18_binary_search` (closed); `C18_nodes_agree` (closed); `C18_has_child_exact` (closed) |
| C19 | PRETTI assignment lists exactly the contained samples | `P_Assign` | `C19_pretti_exact` (closed); `C19_pretti_out_of_range` (closed) |
| C20 | The three sample-assignment strategies are interchangeable | `P_Assign` | `C20_trie_exact` (closed); `C20_strategies_agree` (closed) |
| C21 | Confidence graph edges are exactly co-occurrences with conditional frequencies | `P_Graph` | `C21_confidence_graph` (closed) |
| C22 | Connectivity graph is the noisy-or of both directions | `P_Graph` | `C22_noisy_or` (closed); `C22_one_way_edge_fails` (closed) |
| C23 | Clique enumeration is sound, complete and duplicate-free | `P_Graph` | `C23_enumeration_exact` (closed) |
| C24 | Edge pruning and DFS back-ends do not change the sample space | `P_Graph`, `P_Subgraph` | `C24_same_cliques` (closed); `C24_unknown_backend` (closed) |
| C25 | Sample space is downward closed, contains singletons, shrinks with min_proba | `P_Graph` | `C25_sample_space` (closed); `C25_shrinks` (closed) |
| C26 | sample_clique terminates and returns a clique | `P_Graph` | `C26_sample_clique` (closed); `C26_selfloop_diverges` (closed) |
| C27 | Uncovered-area row weights stay exact under every update history | `P_Uncovered` | `C27_weights_exact` (closed) |
| C28 | Tail sampling only stops when everything is covered | `P_Uncovered` | `C28_stops_when_covered` (closed) |
| C29 | Tail sampling probability is proportional to uncovered area | `P_Uncovered` | `C29_proportional` (closed); `C29_fitted` (closed) |
| C30 | Naive and fast weight updates agree only on disjoint updates | `P_Uncovered` | `C30_naive_vs_fast` (closed) |
| C31 | Refitting the tail sampler after updates breaks sampling | `P_Uncovered` | `C31_refit_breaks` (closed) |
| C32 | CFTP only returns usable positive/negative pairs | `P_Cftp` | `C32_usable_pair` (DF); `C32_head_sample` (DFN); `C32_fresh_fit` (DFN) |
| C33 | CFTP has coalesced: extending the past never changes a returned pair | `P_Cftp` | `C33_coalesced` (DF); `C33_full_horizon` (DFN) |
| C34 | CFTP samples exactly from the target distribution | `P_Cftp` | `C34_exact` (DF) |
| C35 | Proposal weights dominate target weights | `P_Boley`, `P_Cftp` | `C35_boley` (DF); `C35_dominates` (DFN) |
| C36 | Head samples are distributed by discriminativity | `P_Cftp` | `C36_head_law` (DFN); `C36_ground_truth` (DFN) |
| C37 | CFTP bookkeeping | `P_Cftp` | `C37_bookkeeping` (DF); `C37_none` (DFN) |
| C38 | Boley pair weights count discriminative patterns | `P_Boley` | `C38_count` (closed); `C38_uniform` (DF); `C38_sampler` (DF); `C38_ground_truth` (DF); `C38_fresh_fit` (DF) |
| C39 | Boley frequency and area samplers have the advertised distributions | `P_BoleyFA` | `C39_frequency` (DF); `C39_area` (DF) |
| C40 | Candidate generation yields distinct, bound rules within budget | `P_Greedy` | `C40_candidates` (closed); `C40_candidates_returned` (closed) |
| C41 | Greedy picks maximise the objective | `P_Greedy` | `C41_best_candidate` (CDFN) |
| C42 | Rule budget is respected and fit terminates | `P_Greedy` | `C42_budget` (CDFN); `C42_same_for_every_bound` (CDFN) |
| C43 | Tolerance mode terminates and every rule pays its way | `P_Greedy` | `C43_tolerance` (CDFN); `C43_negative_tolerance_runs_forever` (CDFN) |
| C44 | Two-round fit keeps the better round but reports the worse objective | `P_Greedy` | `C44_better_round_worse_objective` (CDFN) |
| C45 | Reported objective ignores rule quality | `P_Greedy` | `C45_objective_is_diversity` (CDFN); `C45_reported` (CDFN) |
| C46 | fit is not idempotent | `P_Greedy` | `C46_refit_extends` (CDFN); `C46_refit_divmax` (CDFN) |
| C47 | fit fails cleanly only in the enumerated cases | `P_Greedy` | `C47_none_head` (closed); `C47_constant_tail` (DFN); `C47_generation_errors` (CDFN); `C47_no_candidates` (CDFN); `C47_loop_error_is_fit_error` (CDFN); `C47_nothing_to_sample` (CDFN); `C47_exhaustive` (CDFN) |
| C48 | Selection objectives of the greedy variants | `P_Greedy` | `C48_objectives` (CDFN); `C48_coverage_antitone` (closed) |
| C49 | Evaluation metrics are bounded, exact on perfect predictions, and dual | `P_Eval`, `P_Small` | `C49_values` (closed); `C49_bounds` (closed); `C49_dual` (closed); `C49_perfect` (closed); `C49_shape_errors` (closed); `C49_report` (closed); `C49_unusual` (closed) |
| C50 | Tail statistics are exact | `P_Eval` | `C50_counts` (closed); `C50_edges` (closed); `C50_edge_errors` (closed); `C50_report` (closed) |
| C51 | Dataset rejects exactly inconsistent shapes and its name maps are inverse | `P_Data`, `P_Small` | `C51_shapes` (closed); `C51_split` (closed); `C51_names` (closed); `C51_set_data` (closed); `C51_graph` (closed); `C51_numbers` (closed); `C51_connectivity` (closed) |
| C52 | shuffle_split_data does not produce a held-out test set | `P_Data` | `C52_mirror` (closed); `C52_law` (closed); `C52_not_held_out` (closed); `C52_errors` (closed) |
| C53 | Set/matrix conversions are inverse | `P_Convert` | `C53_round_trip` (closed); `C53_out_of_range` (closed); `C53_versions` (closed) |
| C54 | Explicitly stored zeros are treated as present | `P_Convert` | `C54_explicit_zero` (closed) |
| C55 | powerset enumerates every subset once | `P_Convert` | `C55_powerset` (closed) |
| C56 | Row and column orders used for plotting are permutations | `P_Plot` | `C56_permutations` (closed); `C56_order_deterministic` (closed); `C56_missing_right` (closed) |
| C57 | Blocks partition clustered indices by cluster membership | `P_Plot` | `C57_blocks` (closed); `C57_blocked_clusters` (closed) |
| C58 | GreedyAreaSampler returns a max-min co-occurrence greedy subset of one row | `P_GreedyArea` | `C58_greedy` (closed); `C58_reachable` (closed); `C58_law` (closed); `C58_no_labels` (closed) |
| C59 | Greedy head choice returns a non-empty discriminative prefix | `P_GreedyHead` | `C59_choice` (closed); `C59_result_unique` (closed); `C59_prune` (closed); `C59_cftp` (DF) |
| C60 | Configuration factories honour given values and defaults | `P_Exp`, `P_Small` | `C60_factories` (closed); `C60_versions` (closed); `C60_cftp_sampler` (closed) |
| C61 | PC frequency sampler draws samples proportionally to support | `P_Uncovered` | `C61_frequency` (closed) |
| C62 | Block adjacency marks exactly the covered block pairs | `P_Plot` | `C62_adjacency` (closed) |
| C63 | The low-rank plot shows the last covering cluster of every cell | `P_Plot` | `C63_low_rank` (closed) |
| C64 | compute_frequencies counts exactly | `P_GreedyArea` | `C64_frequencies` (closed) |
| C65 | train_greedy_and_eval fits on the training part and reports the right part | `P_Exp` | `C65_results` (CDFN); `C65_errors` (CDFN); `C65_train_and_eval` (CDFN) |
| C66 | The diverse generator returns rules, disjointly covered rows and swapped cells | `P_Synth` | `C66_diverse_generator` (closed) |
| C67 | The plain generator returns rows that are unions of covering rules | `P_Synth` | `C67_plain_generator` (closed) |
| C68 | The weight halving of the diverse generator has no effect | `P_Synth` | `C68_rules_independent` (closed) |
| C69 | The sparse reader returns exactly the listed indices | `P_Reader` | `C69_sparse` (closed) |
| C70 | What the dense reader makes of a file | `P_Reader`, `P_Small` | `C70_dense` (closed); `C70_row_error` (closed); `C70_last_char` (closed); `C70_left_width` (closed) |
| C71 | When the dense reader's matrix is binary, and how sparse it is | `P_Reader` | `C71_binary` (closed); `C71_zeros` (closed); `C71_one_hot` (closed) |
| C72 | The genbase reader is off by one | `P_Reader` | `C72_genbase` (closed) |
| C73 | The density thresholds of generate_synthetic_dataset | `P_Reader` | `C73_density` (closed); `C73_errors` (closed) |
| C74 | read_data_arff: prepared files, splitting, and the genbase failure | `P_Reader` | `C74_prepared` (closed); `C74_genbase` (closed); `C74_split` (closed) |
| C75 | kmeans groups rows by label | `P_Pcv` | `C75_groups` (closed) |
| C76 | roundingThreshold is the likelihood-ratio threshold | `P_Pcv` | `C76_between` (CDFN); `C76_likelier` (CDFN) |
| C77 | estimatePQ returns the first best pair of the grid | `P_Pcv` | `C77_search` (CDFN) |
| C78 | PCV pairs every group of rows with its columns and ignores the minimal cluster size | `P_Pcv` | `C78_pcv` (CDFN) |
| C79 | Sampler.sample follows the orbit of one small seed | `P_Seed` | `C79_orbit` (closed); `C79_few` (closed); `C79_periodic` (closed); `C79_repeatable` (closed) |
| C80 | The dummy samplers draw one column uniformly | `P_Seed` | `C80_dummy` (closed) |
| C81 | Trie equality is equality of the inserted sets; nested tuples miss the end marks | `P_TrieEq` | `C81_equal` (closed); `C81_nested_tuple` (closed); `C81_tuple_misses_end_marks` (closed) |
| C82 | Loading a data set by name: which reader, which names, and when the shapes disagree — Loading by name over arbitrary file contents; mlrl is a parameter.  Matrices without rows get 0 columns, so the split theorem is for at least two rows. | `P_Load`, `P_Small` | `C82_conversion` (closed); `C82_toy` (closed); `C82_genbase` (closed); `C82_mlrl` (closed); `C82_prepared` (closed); `C82_dense_pair` (closed); `C82_split` (closed); `C82_toy_data` (closed) |
| C83 | The adviser order of blocks in the cluster plots — The range of the loop in sortSet starts at 2, so position 1 is never tried (C83_three).  Quotients are exact. | `P_Advise` | `C83_similarity` (closed); `C83_adviser` (closed); `C83_three` (closed) |
| C84 | The ground truth of the greedy head samplers, and that CFTP_Greedy draws pairs from it — Both classes have the same two functions; they are modelled once, on the state that both keep.  Quotients are exact. | `P_HeadTruth` | `C84_truth` (DFN); `C84_pair_law` (DFN) |
| C85 | The number of steps reported by coupling from the past — Modelled with return_sample_index=True; the content of the sample is an index into the sample space (C36).  Draws are exact reals. | `P_Details` | `C85_iterations` (DF); `C85_sampler` (DFN) |
| C86 | Repeated sampling gives independent samples — The lists U, V kept by CFTP are threaded between calls; each call resets them.  Draws are exact reals. | `P_Repeat` | `C86_samplers` (DF); `C86_cftp` (DF); `C86_discrim` (DFN) |
| C87 | MLflow experiments under concurrent workers — Each mlflow call is one atomic step on a shared map from names to ids; MlflowException is modelled as GenericException. | `P_Mlflow` | `C87_sequential` (closed); `C87_created_before` (closed); `C87_first_use` (closed) |
| C88 | How good the greedily selected rules are — The value of a list of rules is the sum of what each rule adds in turn; quality, KL and Jaccard distance are exact reals.  C88_half_refuted gives a witness against the factor 1/2. | `P_Approx` | `C88_one_round` (CDFN); `C88_two_rounds` (CDFN); `C88_scored` (CDFN); `C88_half_refuted` (CDFN) |
| C89 | What subgraph_stat reports — The edges counted by is_clique are those of the subgraph of the DiGraph class the caller passes; weights are exact rationals. | `P_Subgraph` | `C89_subgraph_stat` (closed); `C89_sampled_cliques` (closed) |
| C90 | What the experiment scripts run — ray, mlflow and the writing of results are not modelled; NameError at module level is given as its subclass UnboundLocalError; decimal literals are exact rationals. | `P_Scripts` | `C90_binding` (closed); `C90_calls` (CDFN); `C90_search` (DF); `C90_setups` (DF) |
| C91 | The complete classifiers, samplers included — One sequence of reals in [0,1) supplies all draws (inverse of the cumulative probabilities); exact arithmetic. The conditions under which the head sampler returns None (CFTP not coalesced after its last attempt) are in C35-C37. | `P_Complete` | `C91_complete` (CDFN); `C91_complete_divmax` (CDFN); `C91_sequences` (DF); `C91_crash` (CDFN) |
| C92 | What the tuning trials fit, score and report — The measured times are left out of the results. The samplers of the classifiers are parameters (as in C65). | `P_Tune` | `C92_trial` (CDFN); `C92_held_out` (CDFN); `C92_errors` (CDFN); `C92_n_heads` (CDFN) |
| C93 | The summary of the tuning runs ranks the configurations correctly — sort_values is a parameter with the contract that it rearranges the rows in descending order, so the order of equal averages is open. mlflow search_runs is modelled as a filter. | `P_Summarize` | `C93_rows` (DFN); `C93_ranked` (DFN); `C93_errors` (DFN) |
| C94 | csr_matrix_equal compares the values of all cells — Values are integers. The inequality of scipy is modelled as an element-wise operation on equal shapes and as True otherwise. | `P_MatEq` | `C94_matrix_equal` (closed); `C94_shapes` (closed); `C94_sets` (closed); `C94_product` (DF) |
| C95 | Directories and files are created without touching anything else — Paths are lists of components without '.', '..', links and permissions; the subclasses of OSError are not distinguished. The formats json and pickle are parameters (dumps, loads). A failed dump leaves the file empty in the model; really it may hold a part of the output. The name tempfile.mkdtemp chooses is a parameter that is unused in its directory. | `P_Files` | `C95_makedir` (closed); `C95_save_load` (closed); `C95_save_file` (closed); `C95_tempdir` (closed) |
| C96 | What the scores on the training data say about the rules — Scores are exact rationals, the coverage ratio an exact real; floats would round. At least two label columns, since sklearn reads a one-column matrix as a different target type. | `P_Train` | `C96_training_scores` (DF); `C96_fitted` (CDFN); `C96_learned` (CDFN) |
| C97 | The dummy samplers return one uniform column — np.random.randint is idealised: independent, exactly uniform draws. | `P_Small` | `C97_dummy` (closed) |

225 theorems, 142 closed.

## Proof methods

| id | modelled | proof |
|---|---|---|
| C01, C02 | `Rule.bind_dataset` and callees over CSC arrays | unfold; membership in CSC slices = cell specification |
| C03 | both `conjunctive_collapse` and `support_size` | row sums of 0/1 values equal the number of columns iff all are one |
| C04, C13 | rule construction (sorting), eq, hash key, get/set state | uniqueness of sorted permutations |
| C05–C07 | `jaccard_distance` on reals | inclusion–exclusion on finite sets; triangle inequality via `|A∩B|` arithmetic |
| C08 | precision, recall, base rate, KL with `ln` | Gibbs inequality for two points; strict monotonicity by differentiation or convexity |
| C09, C10 | `marginal_coverage`, `coverage_ratio` on a mutable copy | finite-set algebra, induction on the selection history |
| C11, C12 | `predict` (lil assignment + tocsr) | induction on rows/rules; corollaries by extensionality |
| C14–C17 | trie nodes, `_trie_insert`, searches, `populate_sets` | invariant over insertion histories; induction on trees |
| C18 | `binary_search`, `Node`, `NodeV2` | loop invariant on `lo`/`hi` |
| C19, C20, C53, C54 | inverted index, PRETTI trie, three assignment mixins, matrix/set conversions | induction on trie paths; extensional comparison |
| C21, C22 | `graph.py` | counting |
| C23–C25 | `pc.py` DFS, `dfs.pyx`, `prune_edges` | soundness and completeness of the search by induction on the remaining candidates |
| C26 | `sample_clique` | loop variant: the candidate set shrinks |
| C27–C31 | `uncovered_area.py`, `surs.py` as a state machine | invariant over operation histories; exact finite probabilities |
| C32–C37 | `cftp.py`, `discrim.py` | coupling by backward induction, stationarity, integral of step functions |
| C38, C39 | Boley samplers | counting subsets, exact probabilities |
| C40–C48 | greedy classifiers over arbitrary samplers | state-machine invariants, well-founded measure for termination |
| C49, C50 | `evaluation.py` with the sklearn definitions it calls | arithmetic on counts |
| C51, C52 | `data.py` shape checks, `shuffle_split_data` | list lemmas |
| C55 | `powerset` (itertools.combinations) | counting and NoDup |
| C56, C57 | `biclus_viz` permutations and blocks | permutation lemmas |
| C58, C59 | greedy area and greedy head choice | loop invariants |
| C60 | `exp.py` factories | case analysis on configuration maps |
| C61–C63 | frequency sampler of the PC family; block adjacency and low-rank matrices of the plots | state invariants; last-write-wins induction |
| C64, C65 | `compute_frequencies`; the train-and-evaluate functions | counting; unfolding the stateful run |
| C66–C68 | synthetic data generators as random programs | invariants over every outcome; independence by induction on the program |
| C69–C74 | ARFF readers over strings, binarisation, splitting | characterisation of `split`; order statistics |
| C75–C78 | PCV biclustering votes, threshold, grid search | real analysis of `ln`; loop invariants |
| C79, C80 | seeding in `Sampler.sample`, dummy samplers | pigeonhole on the orbit of the seed; exact probabilities |
| C81 | `Node.__eq__`, `as_nested_tuple` | views of ordered tries; canonical form by sortedness |
| C82 | `Dataset.load` with the choice of the reader | rectangular results of the readers; reuse of C51, C70, C74 |
| C83 | `BlockBlockMatrix.order`, `sortSet`, `jacc`, `importanceScore` | loop invariant for the best gap; exchange of sums |
| C84 | `get_ground_truth_proba_for_pairs/samples` of the greedy head samplers | rows embedded as lists; reuse of C34, C36, C59; keys by induction over the folds |
| C85 | `CFTP.sample(return_details=True)`, `sample_once(return_cftp_details=True)` | difference of the laws at two horizons; reuse of C34 |
| C86 | `sample(k)`, `sample_k_times` with the state carried over | product law over the monad; every call resets the CFTP lists |
| C87 | `create_experiment_if_needed`, `get_experiment_id_by_name` run by several workers | interleaving semantics, invariant over all schedules |
| C88 | `fit` of the four greedy classes as approximation algorithms | telescoping of gains, averaging over the alternative list, submodularity of new cells, metric star bound for diversity; complete run as counterexample |
| C89 | `subgraph_stat` on arbitrary node lists and on sampled cliques | pairs of positions against ordered pairs of edges; C24 for the cliques |
| C90 | argument binding, the calls and configurations in `scripts/*.py` | independent definition of a binding; case analysis over names; C60 for the built classifier |
| C91 | `fit` of the GreedyCFTP* classes with both samplers | run on a sequence of random numbers stays within the possible outcomes (C30, C34, C25); loop invariant: the tail sampler has seen exactly the selected rules |
| C92 | `one_run` of tune_and_eval.py, tune_greedy.py, effect_of_n_heads_per_tail.py | exact results per repetition from C49, C11, C10 and the split (C51); induction over the repetitions; the mean of records with equal keys |
| C93 | summarize_tune_results.py | lookups in flattened rows; groups as the distinct values; the sorted table is a permutation |
| C94 | csr_matrix_equal, array_product (utils.py) | the cells that differ; slots of a cell as a list without duplicates |
| C95 | makedir, save_*, load_pickle, get_tempdir (utils.py) | induction over the missing directories; every ancestor of an entry is a directory |
| C96 | predict, coverage_ratio, micro scores on the training data | covered cells are predicted true cells; wrong cells of each rule |
| C97 | dummy samplers (samplers/dummy.py) | expectation of a uniform choice |
