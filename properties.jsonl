{"id": "C01", "title": "Rule support is exactly the matching rows", "statement": "After Rule(head, tail).bind_dataset(X, Y) succeeds, head_support is exactly the set of row ids of X having every head feature, tail_support exactly the rows of Y having every tail label, support their intersection, and support_size/head_support_size/tail_support_size/num_positives are the cardinalities of those sets.", "quantifier": "every head, every tail, every well-formed pair of sparse binary matrices", "why_tests_cant": "a test fixes one matrix and a handful of rules; the claim ranges over all matrices, storage orders and itemsets", "anchors": ["corset/rule.py:Rule.bind_dataset", "corset/rule.py:Rule.set_support", "corset/utils.py:conjunctive_collapse_v2", "corset/utils.py:binary_vector_to_set"]}
{"id": "C02", "title": "bind_dataset rejects exactly the invalid heads", "statement": "bind_dataset raises ValueError exactly when some head element is outside [0, D) or no row of X contains the whole head (given a non-empty head, and a non-empty tail of valid labels); an empty head or tail raises AssertionError; a tail label >= L raises IndexError. A tail label of -1 is silently accepted.", "quantifier": "every head and tail (including empty, negative and too large ids) and every well-formed X, Y", "why_tests_cant": "tests only try three bad heads", "anchors": ["corset/rule.py:Rule._check_head", "corset/rule.py:Rule.set_head_support", "corset/utils.py:conjunctive_collapse_v2"]}
{"id": "C03", "title": "The two conjunctive-collapse implementations and support_size agree", "statement": "For every binary matrix and every non-empty tuple of valid, distinct columns, conjunctive_collapse and conjunctive_collapse_v2 return the same boolean vector, whose i-th entry says that row i has a one in every listed column, and support_size is the number of true entries.", "quantifier": "every binary sparse matrix and every tuple of valid columns, with any set iteration order", "why_tests_cant": "equivalence of two algorithms over an unbounded input space", "anchors": ["corset/utils.py:conjunctive_collapse", "corset/utils.py:conjunctive_collapse_v2", "corset/utils.py:support_size"]}
{"id": "C04", "title": "Rule identity is itemset identity", "statement": "Two rules built from sets are equal (==) iff their heads are the same set and their tails are the same set, whatever the order the elements were given in; equal rules hash the same key; pickling and unpickling a rule yields an equal rule without bound data.", "quantifier": "every pair of heads and tails in every order", "why_tests_cant": "unbounded family of orders and itemsets", "anchors": ["corset/rule.py:Rule.__init__", "corset/rule.py:Rule.__eq__", "corset/rule.py:Rule.__hash__", "corset/rule.py:Rule.__getstate__"]}
{"id": "C05", "title": "Rule distance is the Jaccard distance between covered label cells", "statement": "For two bound rules with at least one non-empty covered area, distance equals 1 - |A\u2229B|/|A\u222aB| where A, B are the sets of (row, label) cells covered; it lies in [0,1], is symmetric, and is 0 iff both rules cover the same cells.", "quantifier": "every pair of bound rules on every dataset", "why_tests_cant": "algebraic law over all inputs", "anchors": ["corset/rule.py:jaccard_distance", "corset/rule.py:Rule.distance"]}
{"id": "C06", "title": "Rule distance satisfies the triangle inequality", "statement": "For all bound rules r1, r2, r3 with non-empty coverage, distance(r1,r3) <= distance(r1,r2) + distance(r2,r3), so distance is a metric on covered areas (needed for the diversity-maximisation guarantee).", "quantifier": "every triple of bound rules", "why_tests_cant": "a triangle inequality over all triples cannot be enumerated", "anchors": ["corset/rule.py:jaccard_distance", "corset/greedy/diversity_maximization.py:GreedyDivMax.diversity_of_rule"]}
{"id": "C07", "title": "Rule distance fails exactly when both rules cover nothing", "statement": "distance raises ZeroDivisionError iff both rules cover no label cell at all; otherwise it returns a number.", "quantifier": "every pair of bound rules", "why_tests_cant": "boundary case over all inputs", "anchors": ["corset/rule.py:jaccard_distance"]}
{"id": "C08", "title": "Quality scores of a bound rule are well-defined", "statement": "For every bound rule on a non-empty dataset precision and base rate lie in [0,1], recall is defined iff the tail occurs and lies in [0,1], KL is always finite and non-negative, and KL is 0 iff precision <= base rate; KL strictly grows with precision above the base rate.", "quantifier": "every rule and dataset", "why_tests_cant": "real-analytic inequality over all counts", "anchors": ["corset/rule.py:Rule.true_positive_rate", "corset/rule.py:Rule.recall", "corset/rule.py:Rule.base_rate", "corset/rule.py:Rule.KL"]}
{"id": "C09", "title": "Marginal coverage counts newly covered cells and is submodular", "statement": "marginal_coverage(ref_rules) is the number of (row, label) cells covered by the rule and by none of the references; it does not depend on the order or multiplicity of references, it never increases when references are added (diminishing returns), is 0 when the rule is among the references, and never raises.", "quantifier": "every rule and every list of reference rules", "why_tests_cant": "set-algebra law over all lists", "anchors": ["corset/rule.py:Rule.marginal_coverage"]}
{"id": "C10", "title": "coverage_ratio is the covered fraction and telescopes", "statement": "For a binary label matrix with at least one label, coverage_ratio() equals (number of label occurrences covered by at least one selected rule) / (number of label occurrences), lies in [0,1], does not depend on rule order, and equals the sum over selected rules of each rule's marginal coverage ratio w.r.t. the rules selected before it.", "quantifier": "every selection history of bound rules on every dataset", "why_tests_cant": "telescoping identity over all histories", "anchors": ["corset/greedy/base.py:GreedyBase.coverage_ratio", "corset/greedy/base.py:GreedyBase.marginal_coverage_ratio"]}
{"id": "C11", "title": "predict fires a label iff some rule's head is contained", "statement": "predict(X)[i,j] is 1 iff some selected rule has every head feature stored in row i of X and has j in its tail; the result has one row per input row and num_labels columns and contains nothing else.", "quantifier": "every fitted rule list with labels in range and every input matrix", "why_tests_cant": "all models and inputs", "anchors": ["corset/greedy/base.py:GreedyBase.predict", "corset/utils.py:convert_matrix_to_sets_v2"]}
{"id": "C12", "title": "predict is order-free, duplicate-free, row-local and monotone", "statement": "Permuting or duplicating selected rules never changes predictions; each output row depends only on the same input row; adding rules or features never removes a predicted label.", "quantifier": "all rule lists, permutations and inputs", "why_tests_cant": "hyper-properties over pairs of runs", "anchors": ["corset/greedy/base.py:GreedyBase.predict"]}
{"id": "C13", "title": "Pickling a classifier preserves predictions", "statement": "Unpickling a pickled classifier yields one with the same rules (as itemsets), number of labels and features and hyper-parameters, and predict gives the same result on every input; training-only data is dropped so coverage_ratio is unavailable.", "quantifier": "every classifier state and every input", "why_tests_cant": "round trip over all states", "anchors": ["corset/greedy/base.py:GreedyBase.__getstate__", "corset/greedy/base.py:GreedyBase.__setstate__", "corset/rule.py:Rule.__setstate__"]}
{"id": "C14", "title": "Trie exact search is set membership", "statement": "After any sequence of insert / insert_batch calls on a SetTrie, search(q) is True iff q is non-empty and q was inserted.", "quantifier": "every history of insertions and every query", "why_tests_cant": "every operation history", "anchors": ["corset/trie/_trie.py:SetTrie.search", "corset/trie/_trie.py:_trie_insert", "corset/trie/node.py:NodeV2.add_child"]}
{"id": "C15", "title": "Trie subset search returns exactly the stored subsets", "statement": "After any history of insertions that ends with insert_batch, search_subsets(q) is exactly the set of inserted non-empty sets (as sorted tuples) contained in q.", "quantifier": "every insertion history and query", "why_tests_cant": "every operation history", "anchors": ["corset/trie/_trie.py:SetTrie.search_subsets", "corset/trie/_trie.py:_trie_search_subsets", "corset/trie/node.py:NodeV2.populate_sets"]}
{"id": "C16", "title": "Trie superset search returns exactly the stored supersets", "statement": "After any history of insertions that ends with insert_batch, search_supersets(q) for non-empty q is exactly the set of inserted sets containing q; for empty q it raises ValueError.", "quantifier": "every insertion history and query", "why_tests_cant": "every operation history", "anchors": ["corset/trie/_trie.py:SetTrie.search_supersets", "corset/trie/_trie.py:_trie_search_supersets"]}
{"id": "C17", "title": "Sets inserted after the last insert_batch are reported as None", "statement": "If a set is inserted with insert and not followed by insert_batch, then subset/superset search reports it as None instead of its content, so C15/C16 fail without the final insert_batch; for every history the exact result is: populated matches by content plus None iff some matching set is unpopulated.", "quantifier": "every insertion history and query", "why_tests_cant": "history-dependent caching defect", "anchors": ["corset/trie/node.py:NodeV2.get_set", "corset/trie/_trie.py:SetTrie.insert"]}
{"id": "C18", "title": "Binary search and the two Node classes agree", "statement": "On every strictly increasing list binary_search returns the index of x if present and -1 otherwise; consequently Node (binary search) and NodeV2 (dict) answer has_child / get_child identically after any add_child history.", "quantifier": "every sorted list and every key, every add_child history", "why_tests_cant": "all inputs", "anchors": ["corset/trie/utils.py:binary_search", "corset/trie/node.py:Node.has_child", "corset/trie/node.py:NodeV2.has_child", "corset/trie/node.py:Node.add_child"]}
{"id": "C19", "title": "PRETTI assignment lists exactly the contained samples", "statement": "For every sample space and label matrix, new_rows has one entry per row and new_rows[i] lists, in increasing order and once each, exactly the ids of the samples contained in row i.", "quantifier": "every sample space (with repeats and empty samples) and every matrix, any set iteration order", "why_tests_cant": "trie built on the fly over unbounded histories", "anchors": ["corset/PRETTI/PRETTI_Trie.py:PTrie.ProcessRecord", "corset/samplers/assignment.py:PRETTISampleAssignmentMixin", "corset/PRETTI/PRETTI_invertedIndex.py:InvertedIndex.build_index"]}
{"id": "C20", "title": "The three sample-assignment strategies are interchangeable", "statement": "On a duplicate-free sample space of non-empty sets and a matrix without explicit zeros the naive, trie and PRETTI strategies assign the same set of sample ids to every row, each id once.", "quantifier": "every such sample space and matrix", "why_tests_cant": "equivalence of three algorithms", "anchors": ["corset/samplers/assignment.py:NaiveSampleAssignmentMixin", "corset/samplers/assignment.py:TrieSampleAssignmentMixin", "corset/samplers/assignment.py:PRETTISampleAssignmentMixin"]}
{"id": "C21", "title": "Confidence graph edges are exactly co-occurrences with conditional frequencies", "statement": "construct_confidence_graph(Y) has nodes 0..L-1, an edge u->v iff u != v and some row has both labels, edge weight |X(u)\u2229X(v)|/|X(u)| in (0,1], node attribute freq = number of rows with the label; edges are bidirectional.", "quantifier": "every binary label matrix", "why_tests_cant": "all inputs", "anchors": ["corset/graph.py:construct_confidence_graph"]}
{"id": "C22", "title": "Connectivity graph is the noisy-or of both directions", "statement": "convert_to_connectivity_graph keeps the nodes, has an undirected edge for each co-occurring pair with weight 1-(1-c(u,v))(1-c(v,u)), which lies in (0,1] and is at least both directed weights.", "quantifier": "every confidence graph", "why_tests_cant": "all inputs", "anchors": ["corset/graph.py:convert_to_connectivity_graph"]}
{"id": "C23", "title": "Clique enumeration is sound, complete and duplicate-free", "statement": "For every graph with edge weights in [0,1] and every threshold, enumerate_probable_cliques returns exactly the strictly increasing tuples that are singletons or cliques whose product of edge weights is >= alpha, each exactly once, with its probability.", "quantifier": "every graph, threshold and neighbour iteration order", "why_tests_cant": "exhaustive search over unbounded graphs", "anchors": ["corset/samplers/pc.py:enumerate_probable_cliques", "corset/samplers/pc.py:dfs", "corset/samplers/dfs.pyx:dfs_v2_aux"]}
{"id": "C24", "title": "Edge pruning and DFS back-ends do not change the sample space", "statement": "Enumerating on prune_edges(g, alpha) with threshold alpha gives the same cliques as enumerating on g; the dfs and dfs_v2 back-ends return the same cliques.", "quantifier": "every graph with weights in [0,1] and every threshold", "why_tests_cant": "optimisation-correctness over all graphs", "anchors": ["corset/samplers/pc.py:prune_edges", "corset/samplers/pc.py:dfs", "corset/samplers/dfs.pyx:dfs_v2"]}
{"id": "C25", "title": "Sample space is downward closed, contains singletons, shrinks with min_proba", "statement": "The reduced sample space contains every singleton, is closed under non-empty subsets, contains only mutually co-occurring items, and raising min_proba can only remove samples.", "quantifier": "every dataset and threshold pair", "why_tests_cant": "hyper-property over all thresholds", "anchors": ["corset/samplers/pc.py:PCSampleSpaceConstructor"]}
{"id": "C26", "title": "sample_clique terminates and returns a clique", "statement": "For every graph, start node and random outcome sample_clique stops after at most |V| steps and returns a sorted duplicate-free tuple that contains the start and in which every pair is joined by an edge.", "quantifier": "every graph, start node and random sequence", "why_tests_cant": "all random schedules", "anchors": ["corset/graph.py:sample_clique", "corset/graph.py:forms_clique"]}
{"id": "C27", "title": "Uncovered-area row weights stay exact under every update history", "statement": "After fit and any sequence of update_row_weights calls, each row's weight equals the sum over its samples of the number of elements not yet covered for that row; weights are never negative and the internal consistency exception is never raised.", "quantifier": "every sample space, assignment and update history", "why_tests_cant": "incremental maintenance over all histories", "anchors": ["corset/samplers/uncovered_area.py:UncoveredAreaMixin.update_row_weights", "corset/samplers/uncovered_area.py:UncoveredAreaMixin._sample_itemset_from_row"]}
{"id": "C28", "title": "Tail sampling only stops when everything is covered", "statement": "After any update history sample_once raises NoMoreSamples iff every element of every row's samples is covered; otherwise, for every random outcome, it returns a sample of the sampled row that still has an uncovered element for that row.", "quantifier": "every history and random outcome", "why_tests_cant": "all random schedules and histories", "anchors": ["corset/samplers/uncovered_area.py:UncoveredAreaMixin._sample_itemset_from_row", "corset/samplers/surs.py:ReducedSpaceSampler.sample_once", "corset/samplers/uncovered_area.py:UncoveredAreaMixin._update_row_probas"]}
{"id": "C29", "title": "Tail sampling probability is proportional to uncovered area", "statement": "After any update history with something left uncovered, the probability that sample_once returns sample s is its total uncovered area (sum over rows containing s of its uncovered elements in that row) divided by the total over all samples.", "quantifier": "every sample space and history", "why_tests_cant": "a distribution identity; statistical tests only approximate it", "anchors": ["corset/samplers/uncovered_area.py:UncoveredAreaMixin", "corset/samplers/surs.py:ReducedSpaceSampler.sample_once"]}
{"id": "C30", "title": "Naive and fast weight updates agree only on disjoint updates", "statement": "update_row_weights_naive and update_row_weights give the same weights for histories in which no row has the same element covered twice; on overlapping histories the naive version under-counts (and can go negative).", "quantifier": "every update history", "why_tests_cant": "history-dependent equivalence", "anchors": ["corset/samplers/uncovered_area.py:UncoveredAreaMixin.update_row_weights_naive", "corset/samplers/uncovered_area.py:UncoveredAreaMixin.update_row_weights"]}
{"id": "C31", "title": "Refitting the tail sampler after updates breaks sampling", "statement": "UncoveredAreaSampler.fit does not clear its update history: after fit, an effective update and a second fit, sampling from an affected row raises the internal weight-mismatch exception instead of returning a sample.", "quantifier": "every dataset, effective update and refit", "why_tests_cant": "needs a particular history; a per-method unit test never sees it", "anchors": ["corset/samplers/uncovered_area.py:UncoveredAreaSampler.fit", "corset/samplers/uncovered_area.py:UncoveredAreaMixin.update_row_weights"]}
{"id": "C32", "title": "CFTP only returns usable positive/negative pairs", "statement": "For every random stream, a pair returned by CFTP.sample has its first component in pos_list, second in neg_list and at least one sample in the first and not the second, so the head sampler never draws from an empty list and returns a sample contained in the positive row and not in the negative one.", "quantifier": "every dataset and random stream", "why_tests_cant": "all random schedules", "anchors": ["corset/samplers/cftp.py:CFTP.sample", "corset/samplers/cftp.py:CFTP.simulate_backwards", "corset/samplers/discrim.py:CFTPDiscriminativitySampler.sample_once"]}
{"id": "C33", "title": "CFTP has coalesced: extending the past never changes a returned pair", "statement": "When simulation over some horizon yields a pair, prepending any amount of older randomness yields the same pair, and starting the chain from any state yields the same pair; hence CFTP.sample equals the simulation over the full max_iters horizon.", "quantifier": "every proposal that dominates the target, every random history", "why_tests_cant": "coupling argument over all histories", "anchors": ["corset/samplers/cftp.py:CFTP.simulate_backwards", "corset/samplers/cftp.py:CFTP.add_data", "corset/samplers/cftp.py:CFTP.sample"]}
{"id": "C34", "title": "CFTP samples exactly from the target distribution", "statement": "The probability that CFTP.sample returns pair c is W(c)/sum W times (1-(1-p)^n) with n the largest horizon and p the acceptance mass: conditional on success the pair is distributed exactly proportionally to |pos \\ neg|, and failure has probability (1-p)^n.", "quantifier": "every dataset and every horizon", "why_tests_cant": "exact distribution statement", "anchors": ["corset/samplers/cftp.py:CFTP"]}
{"id": "C35", "title": "Proposal weights dominate target weights", "statement": "For the tight, original and Boley proposals the proposal weight of every pair is at least its target weight, so acceptance ratios from the initial state are at most 1.", "quantifier": "every dataset and pair", "why_tests_cant": "inequality over all inputs", "anchors": ["corset/samplers/discrim.py:CFTPDiscriminativitySampler._compute_weight_dict", "corset/samplers/boley_discrim.py:BoleyCFTPDiscriminativitySampler._compute_weight_dict"]}
{"id": "C36", "title": "Head samples are distributed by discriminativity", "statement": "Choosing a pair proportionally to |pos\\neg| and then uniformly from the difference gives each sample probability support_in_positives * (negatives - support_in_negatives) / total, which is what get_ground_truth_proba_for_samples returns; the ground-truth probabilities sum to 1.", "quantifier": "every dataset and labelling", "why_tests_cant": "exact distribution statement", "anchors": ["corset/samplers/discrim.py:CFTPDiscriminativitySampler.sample_once", "corset/samplers/discrim.py:CFTPDiscriminativitySampler.get_ground_truth_proba_for_samples"]}
{"id": "C37", "title": "CFTP bookkeeping", "statement": "CFTP.sample leaves its random lists empty, extends the lists only by prepending so that previously drawn randomness is reused unchanged, uses horizons 1,2,4,... never above max_iters, and returns None iff weights are all zero or no horizon up to max_iters accepts.", "quantifier": "every random stream and max_iters", "why_tests_cant": "all schedules", "anchors": ["corset/samplers/cftp.py:CFTP.sample", "corset/samplers/cftp.py:CFTP.add_data"]}
{"id": "C38", "title": "Boley pair weights count discriminative patterns", "statement": "(2^|P\\N|-1)*2^|P\u2229N| is the number of subsets of P not contained in N, and the pattern drawn from a pair is, for every random outcome, a subset of P not contained in N, uniform over those.", "quantifier": "every pair of rows and random outcome", "why_tests_cant": "counting identity over all sets", "anchors": ["corset/samplers/boley_cftp.py:BoleyCFTP.simulate_backwards", "corset/samplers/boley_discrim.py:BoleyCFTPDiscriminativitySampler.sample_once", "corset/utils.py:draw_bernoulli_elementwise"]}
{"id": "C39", "title": "Boley frequency and area samplers have the advertised distributions", "statement": "BoleyFrequencySampler draws each non-empty itemset proportionally to its support; BoleyAreaSampler draws each non-empty itemset proportionally to support times size.", "quantifier": "every label matrix and itemset", "why_tests_cant": "exact distribution statement", "anchors": ["corset/samplers/freq.py:BoleyFrequencySampler", "corset/samplers/area.py:BoleyAreaSampler"]}
{"id": "C40", "title": "Candidate generation yields distinct, bound rules within budget", "statement": "generate_candidate_rules returns pairwise different rules, at most n_tails_per_iter*n_heads_per_tail of them, each built from a tail and a head returned by the samplers and bound to the training data.", "quantifier": "every pair of samplers and every random outcome", "why_tests_cant": "all samplers and schedules", "anchors": ["corset/greedy/base.py:RuleSampler.generate_candidate_rules"]}
{"id": "C41", "title": "Greedy picks maximise the objective", "statement": "select_best_candidate returns a member of the candidate set whose objective is maximal among candidates, for every iteration order; it raises ValueError iff there are no candidates.", "quantifier": "every candidate set and iteration order", "why_tests_cant": "all inputs and orders", "anchors": ["corset/greedy/base.py:GreedyBase.select_best_candidate"]}
{"id": "C42", "title": "Rule budget is respected and fit terminates", "statement": "With n_max_rules = k, fit of the greedy classifiers selects at most max(k, rules already present) rules, performs at most k+1 rounds of candidate generation, and stops early only through NoMoreSamples (or an error).", "quantifier": "every sampler behaviour and dataset", "why_tests_cant": "termination over all executions", "anchors": ["corset/greedy/divmax_v2.py:GreedyDivMaxV2.fit", "corset/greedy/divmax_v2.py:GreedyDivMaxV2.should_stop", "corset/greedy/submod.py:GreedySubmod.fit", "corset/greedy/diversity_maximization.py:GreedyDivMax.fit_1st_round"]}
{"id": "C43", "title": "Tolerance mode terminates and every rule pays its way", "statement": "With n_max_rules=None and tolerance >= 0, the first round stops after at most (number of label occurrences)+1 rounds, every selected rule newly covered more than a tolerance fraction of label occurrences when it was added, and fewer than 1/tolerance rules are selected; with a negative tolerance it can run forever.", "quantifier": "every sampler behaviour and dataset", "why_tests_cant": "termination over all executions", "anchors": ["corset/greedy/diversity_maximization.py:GreedyDivMax.should_stop", "corset/greedy/diversity_maximization.py:GreedyDivMax.fit_1st_round"]}
{"id": "C44", "title": "Two-round fit keeps the better round but reports the worse objective", "statement": "After GreedyDivMax.fit both rounds have the same number of rules and the selected rules are those of the round with the larger objective (ties: second round), but the reported obj is the smaller of the two objectives.", "quantifier": "every sampler behaviour and dataset", "why_tests_cant": "relation between two phases over all executions", "anchors": ["corset/greedy/diversity_maximization.py:GreedyDivMax.fit", "corset/greedy/diversity_maximization.py:GreedyDivMax.fit_2nd_round"]}
{"id": "C45", "title": "Reported objective ignores rule quality", "statement": "objective(selected_rules) always equals lambd times the pairwise diversity: the quality term is identically zero because each rule's marginal coverage is measured against a list that already contains it.", "quantifier": "every selected rule list", "why_tests_cant": "an identity over all selections that a test comparing with the same helper cannot see", "anchors": ["corset/greedy/diversity_maximization.py:GreedyDivMax.objective", "corset/greedy/diversity_maximization.py:GreedyDivMax.quality_of_rule"]}
{"id": "C46", "title": "fit is not idempotent", "statement": "A second fit on the same classifier keeps the rules of the first fit: the selected rules after refitting extend the previous list, and with the budget already used no new rule is learned even for different data.", "quantifier": "every classifier state and dataset", "why_tests_cant": "two-run property", "anchors": ["corset/greedy/divmax_v2.py:GreedyDivMaxV2.fit", "corset/greedy/base.py:GreedyBase.set_X_Y"]}
{"id": "C47", "title": "fit fails cleanly only in the enumerated cases", "statement": "During candidate generation a None head (CFTP failure) raises TypeError, a tail present in every row raises AssertionError in the head sampler, an empty candidate set raises ValueError, and NoMoreSamples is the only exception that ends fit normally.", "quantifier": "every sampler behaviour", "why_tests_cant": "error paths over all executions", "anchors": ["corset/greedy/base.py:RuleSampler.generate_candidate_rules", "corset/samplers/discrim.py:CFTPDiscriminativitySampler._check_data", "corset/greedy/divmax_v2.py:GreedyDivMaxV2.fit"]}
{"id": "C48", "title": "Selection objectives of the greedy variants", "statement": "objective_of_rule is marginal coverage times KL plus lambd times the sum of distances to selected rules (DivMax/V2), with square-rooted coverage in V3, and KL (only if something new is covered) plus lambd times marginal coverage in GreedySubmod; the coverage part never increases as rules are selected.", "quantifier": "every rule, selection and lambd", "why_tests_cant": "all inputs", "anchors": ["corset/greedy/diversity_maximization.py:GreedyDivMax.objective_of_rule", "corset/greedy/divmax_v3.py:GreedyDivMaxV3.quality_of_rule", "corset/greedy/submod.py:GreedySubmod.objective_of_rule"]}
{"id": "C49", "title": "Evaluation metrics are bounded, exact on perfect predictions, and dual", "statement": "All eight metrics lie in [0,1], equal 1 on perfect predictions, precision of (P,T) equals recall of (T,P), F1 is symmetric, micro F1 is the harmonic mean of micro precision and recall.", "quantifier": "every pair of equal-shaped binary matrices", "why_tests_cant": "all inputs", "anchors": ["corset/evaluation.py"]}
{"id": "C50", "title": "Tail statistics are exact", "statement": "TailEvaluator support_size, frequency, area and length of each itemset are the number of rows containing it, that number over the number of rows, support times size, and size; edge_ratio is edge_density/(|S|-1).", "quantifier": "every dataset and list of itemsets", "why_tests_cant": "all inputs", "anchors": ["corset/evaluation.py:TailEvaluator", "corset/utils.py:support_size"]}
{"id": "C51", "title": "Dataset rejects exactly inconsistent shapes and its name maps are inverse", "statement": "load/set_data succeed iff train and test row counts match between X and Y and the column counts match between train and test; label2id inverts label_names when names are distinct; a train split partitions the rows.", "quantifier": "every quadruple of shapes and name list", "why_tests_cant": "all inputs", "anchors": ["corset/data.py:Dataset._check_shapes", "corset/data.py:Dataset.load", "corset/data.py:Dataset.split_train_if_needed"]}
{"id": "C52", "title": "shuffle_split_data does not produce a held-out test set", "statement": "The test part has the same number of rows as the train part and consists of the mirrored indices N-1-i of the (repeatable) train indices, so train and test can share rows and rows can be in neither; the split is never a partition unless the drawn indices happen to allow it.", "quantifier": "every matrix and every random index draw", "why_tests_cant": "needs reasoning on every draw", "anchors": ["corset/utils_data.py:shuffle_split_data"]}
{"id": "C53", "title": "Set/matrix conversions are inverse", "statement": "convert_matrix_to_sets(convert_sets_to_matrix(sets, L)) returns the same sets when elements are in [0,L), an element >= L raises IndexError, and both convert_matrix_to_sets versions agree on matrices without explicit zeros.", "quantifier": "every list of sets", "why_tests_cant": "round trip over all inputs", "anchors": ["corset/utils.py:convert_sets_to_matrix", "corset/utils.py:convert_matrix_to_sets", "corset/utils.py:convert_matrix_to_sets_v2"]}
{"id": "C54", "title": "Explicitly stored zeros are treated as present", "statement": "On a matrix with an explicitly stored zero convert_matrix_to_sets_v2 (hence predict) reports that feature as present while convert_matrix_to_sets does not, so predict can fire a rule on a feature whose value is 0.", "quantifier": "existence over stored representations", "why_tests_cant": "representation-dependent behaviour invisible on dense test data", "anchors": ["corset/utils.py:convert_matrix_to_sets_v2", "corset/greedy/base.py:GreedyBase.predict"]}
{"id": "C55", "title": "powerset enumerates every subset once", "statement": "powerset(S) lists every subset of S exactly once (2^n of them, or 2^n-1 without the empty set), smallest first.", "quantifier": "every finite set", "why_tests_cant": "unbounded sizes", "anchors": ["corset/utils.py:powerset"]}
{"id": "C56", "title": "Row and column orders used for plotting are permutations", "statement": "For clusters with in-range indices, getLeftPermutation / getRightPermutation (before and after ordering) list every row / column exactly once, and plotting the reordered matrix preserves every cell.", "quantifier": "every matrix and clustering, every shuffle", "why_tests_cant": "all inputs and shuffles", "anchors": ["biclus_viz/PlotCreator.py:BlockBlockMatrix.getLeftPermutation", "biclus_viz/PlotCreator.py:BlockBlockMatrix.sortSet"]}
{"id": "C57", "title": "Blocks partition clustered indices by cluster membership", "statement": "createBlocks groups the clustered indices so that every clustered index is in exactly one block and two indices share a block iff they belong to the same clusters.", "quantifier": "every list of clusters", "why_tests_cant": "all inputs", "anchors": ["biclus_viz/PlotCreator.py:createBlocks"]}
{"id": "C58", "title": "GreedyAreaSampler returns a max-min co-occurrence greedy subset of one row", "statement": "For every random outcome the tail is a subset of the chosen row's labels with exactly the drawn size, at least two labels whenever the row has two, and each added label maximises the minimum co-occurrence with those already chosen.", "quantifier": "every matrix and random outcome", "why_tests_cant": "all schedules", "anchors": ["corset/samplers/greedy_area.py:GreedyAreaSampler.sample_once"]}
{"id": "C59", "title": "Greedy head choice returns a non-empty discriminative prefix", "statement": "greedy_choice returns a non-empty subset of the positive-minus-negative features which is a prefix of the greedily chosen attributes up to the one with the largest gain, and fails when the difference is empty.", "quantifier": "every data record pair and parameters", "why_tests_cant": "all inputs", "anchors": ["corset/samplers/cftp_and_greedy.py:CFTP_Greedy.greedy_choice", "corset/samplers/prune_and_greedy.py:PruneGreedy.greedy_choice"]}
{"id": "C60", "title": "Configuration factories honour given values and defaults", "statement": "create_greedy_v2/v3_from_config use exactly the values given in the config and the documented default for every missing key; an unsupported version raises AssertionError.", "quantifier": "every configuration dictionary", "why_tests_cant": "all subsets of keys", "anchors": ["corset/exp.py"]}
{"id": "C61", "title": "PC frequency sampler draws samples proportionally to support", "statement": "PCFrequencySampler fitted on any 0/1 label matrix with at least one label occurrence returns each sample of its sample space with probability equal to its support (number of rows containing it) divided by the total support of all samples, and never fails or returns an unsupported sample.", "quantifier": "every label matrix, pruning option and backend", "why_tests_cant": "exact distribution identity; statistical tests only approximate it", "anchors": ["corset/samplers/pc.py:PCFrequencySampler", "corset/samplers/freq.py:SURSFrequencySamplerMixin"]}
{"id": "C62", "title": "Block adjacency marks exactly the covered block pairs", "statement": "createBlockBlockAdj has, for a left block and a right block, the product of the block sizes if some kept pair of clusters contains an index of each, and 0 otherwise.", "quantifier": "every pair of cluster lists and every shuffle", "why_tests_cant": "all inputs", "anchors": ["biclus_viz/PlotCreator.py:BlockBlockMatrix.createBlockBlockAdj"]}
{"id": "C63", "title": "The low-rank plot shows the last covering cluster of every cell", "statement": "plotMatrix returns a matrix of the original shape whose entry at the place of row x and column y is the 1-based number of the last kept cluster pair containing x and y, or 0 if there is none, before and after ordering.", "quantifier": "every clustering with in-range indices and every shuffle", "why_tests_cant": "all inputs and shuffles", "anchors": ["biclus_viz/PlotCreator.py:BlockBlockMatrix.plotMatrix"]}
{"id": "C64", "title": "compute_frequencies counts exactly", "statement": "d_label[a][b] and d_attributes[a][b] are the numbers of rows with both labels (attributes); Counter(all_labels)[l] is the number of rows with the label l; d[l] lists exactly the attributes that occur together with l, each once, with the number of rows where they do; d_formatted[l] is that list sorted stably by count.", "quantifier": "all 0/1 matrices of equal length, all set orders", "why_tests_cant": "all matrices and set orders", "anchors": ["corset/samplers/greedy_area.py:compute_frequencies"]}
{"id": "C65", "title": "train_greedy_and_eval fits on the training part and reports the right part", "statement": "train_greedy_and_eval fits a new classifier of the requested version with the configured hyperparameters on exactly the training matrices, predicts on the development part in validation mode and on the test part otherwise, and returns the fitted classifier with the eight scores of that prediction, the training coverage ratio and the number of rules; train_and_eval reports the same for a given classifier on the test part. Exceptions of load, of the version check and of fit are passed on; validation mode without a development part raises AttributeError.", "quantifier": "every dataset, configuration, sampler behaviour and random outcome", "why_tests_cant": "all datasets and sampler outcomes", "anchors": ["corset/exp.py:train_greedy_and_eval", "corset/exp.py:train_and_eval"]}
{"id": "C66", "title": "The diverse generator returns rules, disjointly covered rows and swapped cells", "statement": "generate_synthetic_dataset_from_diverse_generating_rules returns exactly the following: k rules whose heads (tails) are non-empty proper subsets of the attributes (labels); training and test matrices that both have n rows; up to swapped cells, each row is the indicator of the head (tail) of the single rule covering it, or zero; every rule covers fewer than n/k training rows and fewer than (2n/5)/k test rows, and only the first 2n/5 test rows are covered; the number of cell swaps per matrix is the noise proportion of its cells, rounded down. It fails exactly for negative sizes (ValueError), for at least one rule with at most two attributes or labels (IndexError), and for more rules than test examples (ValueError).", "quantifier": "every n, d, l, k, noise proportion and every random outcome; and every listed result is possible", "why_tests_cant": "all sizes and all random outcomes; the test matrices silently have n rows instead of 2n/5", "anchors": ["corset/utils_data.py:generate_synthetic_dataset_from_diverse_generating_rules"]}
{"id": "C67", "title": "The plain generator returns rows that are unions of covering rules", "statement": "generate_synthetic_dataset_from_generating_rules returns exactly: k rules with 2..d-1 attributes and 1..l-1 labels; training and test matrices with n rows where, up to swapped cells, row i is the union of the heads (tails) of the rules covering it; every rule covers fewer than n/k training rows and fewer than (3n/10)/k of the first 3n/10 test rows; the noise in the returned matrix is that of a single pass, although noise is injected in every round. Without rules it raises UnboundLocalError; with at most two attributes, at most one label or more rules than test examples it raises ValueError.", "quantifier": "every n, d, l, k, noise proportion and every random outcome", "why_tests_cant": "all sizes and all random outcomes", "anchors": ["corset/utils_data.py:generate_synthetic_dataset_from_generating_rules"]}
{"id": "C68", "title": "The weight halving of the diverse generator has no effect", "statement": "The rules of the diverse generator are independent and identically distributed: the probability that head i lies in A_i and tail i in B_i for all i is the product of the single probabilities, where a side draws its size s in 2..n-1 with probability proportional to 1/s and then s elements uniformly with replacement. The halved weights are re-created in every round and never used.", "quantifier": "all sizes, all families of sets A_i, B_i", "why_tests_cant": "independence is a statement about the joint distribution", "anchors": ["corset/utils_data.py:generate_synthetic_dataset_from_diverse_generating_rules"]}
{"id": "C69", "title": "The sparse reader returns exactly the listed indices", "statement": "For a well-formed sparse ARFF file read_data_arff_sparse returns the indicator matrix of the indices listed in each row, split before the last n_labels columns, with the names of the last n_labels attributes (all names for n_labels = 0). The values are not looked at, so an explicit 0 counts as 1, and a negative index counts from the end. An empty row raises ValueError, an index outside the columns IndexError, and the first bad row decides.", "quantifier": "all headers, attribute lists, rows, values and numbers of labels; last line with or without line break", "why_tests_cant": "text parsing over unbounded files; the error order depends on all rows", "anchors": ["corset/utils_data.py:read_data_arff_sparse"]}
{"id": "C70", "title": "What the dense reader makes of a file", "statement": "read_data_arff_dense loses the first character of every row and the last character of every line. A numeric feature value becomes 0 iff at most floor((n-1)p) values of its column are smaller; a non-numeric feature is truncated to an integer if it has at most two values and otherwise replaced by one indicator column per value, in increasing order, after all kept features. Labels are truncated. A numeric label attribute raises IndexError; the first unreadable row decides the error, a row of one value is repeated over all columns.", "quantifier": "all files, all float parsers, all sparsities in [0,1]", "why_tests_cant": "rank statements over all columns of all sizes, and an arbitrary parser", "anchors": ["corset/utils_data.py:read_data_arff_dense"]}
{"id": "C71", "title": "When the dense reader's matrix is binary, and how sparse it is", "statement": "The feature matrix is binary iff every non-numeric feature with at most two values truncates to 0/1: two-valued features such as {1,2} are not recoded. A numeric column has at least floor((n-1)p)+1 zeros, exactly that many for distinct values. Each row has exactly one 1 per replaced feature in the indicator columns.", "quantifier": "all files the reader accepts", "why_tests_cant": "counting statements over all tables", "anchors": ["corset/utils_data.py:read_data_arff_dense"]}
{"id": "C72", "title": "The genbase reader is off by one", "statement": "read_data_arff_dense_genbase returns only n_labels - 1 label columns: the first label is the last feature. The mark of a numeric attribute is applied to the following column, IndexError if there is none. Values equal to the quantile become 1, unlike in the dense reader.", "quantifier": "all genbase files, float parsers and sparsities in [0,1]", "why_tests_cant": "the off-by-one is silent: shapes stay consistent", "anchors": ["corset/utils_data.py:read_data_arff_dense_genbase"]}
{"id": "C73", "title": "The density thresholds of generate_synthetic_dataset", "statement": "For a non-negative integer matrix of N cells and k = ceil((N-1)p): if more than k cells are at most 1 the result is all zero; otherwise a cell is 1 iff at most k cells are not larger than it. So the second threshold, computed after the first assignment, can erase everything. A proportion outside [0,1] raises ValueError, an empty matrix IndexError.", "quantifier": "all matrices of counts and all proportions", "why_tests_cant": "two data-dependent quantiles applied in sequence", "anchors": ["corset/utils_data.py:generate_synthetic_dataset"]}
{"id": "C74", "title": "read_data_arff: prepared files, splitting, and the genbase failure", "statement": "If a file name contains 'train' or the split is 0, the files -train and -test are read, each coded on its own, and the label names are those of the test file; for dense genbase files this always ends in UnboundLocalError once both files are read. Otherwise the single file is read and int(split*n) rows are drawn with replacement for training, and the mirrored rows form the test part.", "quantifier": "all folders, files, parameters and random draws", "why_tests_cant": "depends on the folder listing and on the random draws", "anchors": ["corset/utils_data.py:read_data_arff"]}
{"id": "C75", "title": "kmeans groups rows by label", "statement": "The clusters returned for a list of labels partition the indices of the list; two indices are in one cluster iff their labels are equal; every cluster is non-empty and increasing, and the clusters are ordered by first element.", "quantifier": "all lists of labels", "why_tests_cant": "covers every labelling, not the few KMeans returns in a run", "anchors": ["biclus_viz/includes/pcv/ProjCluster.py:kmeans"]}
{"id": "C76", "title": "roundingThreshold is the likelihood-ratio threshold", "statement": "For 0 < q < p < 1 the rounding threshold lies strictly between q and p, and voting with it elects exactly the columns whose ones are likelier when each cell is 1 with probability p than with probability q.", "quantifier": "all real 0<q<p<1 and all 0/1 tables", "why_tests_cant": "a statement about all reals and all tables", "anchors": ["biclus_viz/includes/pcv/Heuristic.py:roundingThreshold", "biclus_viz/includes/pcv/MajorityVote.py:BinaryMajorityVoteSingleCluster"]}
{"id": "C77", "title": "estimatePQ returns the first best pair of the grid", "statement": "estimatePQ returns, with the columns it elects, the first pair with q < p of the grid that minimises the distance between the pair and the shares of ones inside and outside of the columns it elects (share 1 inside and 0 outside if there is no cell); if no pair has q < p it returns (1, 0) and no column.", "quantifier": "all grids with q > 0 and p < 1, and all 0/1 tables", "why_tests_cant": "optimality over all grids and tables", "anchors": ["biclus_viz/includes/pcv/Heuristic.py:estimatePQ", "biclus_viz/includes/pcv/Heuristic.py:estimatePQSingleCluster"]}
{"id": "C78", "title": "PCV pairs every group of rows with its columns and ignores the minimal cluster size", "statement": "For every labelling with one label per row PCV does not fail; its left clusters are the groups of equal labels; right cluster i holds the columns elected for left cluster i, by the grid search or by the given threshold; minClusterSize has no effect.", "quantifier": "all labellings, 0/1 tables, thresholds and minimal sizes", "why_tests_cant": "covers all labellings and tables", "anchors": ["biclus_viz/includes/pcv/PCV.py:PCV", "biclus_viz/includes/pcv/MajorityVote.py:BinaryMajorityVote"]}
{"id": "C79", "title": "Sampler.sample follows the orbit of one small seed", "statement": "For every sampler whose sample_once seeds the generator, the samples returned by sample(size) are the orbit of a single seed in [0,100000) under a fixed function: so there are at most 100000 different results for a given size and at most 100000 different samples, every long enough result becomes periodic within the first 100000 samples, and with a random_state two calls return the same list, a shorter one being a prefix of a longer one.", "quantifier": "all generators, samplers, seeds, initial states and sizes", "why_tests_cant": "the period exceeds any test run and depends on the generator", "anchors": ["corset/samplers/base.py:Sampler.sample", "corset/samplers/area.py:sample_once", "corset/samplers/freq.py:sample_once", "corset/samplers/surs.py:sample_once"]}
{"id": "C80", "title": "The dummy samplers draw one column uniformly", "statement": "sample_once of the dummy samplers returns each single column with probability 1/n and nothing else; with no column it raises ValueError.", "quantifier": "all numbers of columns", "why_tests_cant": "a statement about probabilities", "anchors": ["corset/samplers/dummy.py"]}
{"id": "C81", "title": "Trie equality is equality of the inserted sets; nested tuples miss the end marks", "statement": "For any two histories of insert and insert_batch calls with sets, the root nodes compare equal (Node.__eq__) iff the same non-empty sets were inserted, whatever the order, repetition and batching.  as_nested_tuple is equal iff the same initial parts (in increasing order) of inserted sets exist, so inserting an initial part of a stored set never changes it although the tries differ.", "quantifier": "all pairs of insertion histories", "why_tests_cant": "the insertion histories are unbounded; tests compare a few small tries", "anchors": ["corset/trie/node.py:87-105"]}
{"id": "C82", "title": "Loading a data set by name: which reader, which names, and when the shapes disagree", "statement": "Dataset.load uses the literal matrices for toy, the ARFF reader for the five names of its table, and mlrl for other names (training file first, names from the test file); a reader's error leaves the data set unchanged, and genbase always ends in TypeError because shuffle_split_data is called with four arguments.  The lil matrices have exactly the cells of the tables.  Two prepared dense files are binarised separately: load succeeds iff the numbers of encoded columns agree, even if the columns stand for different values, and otherwise raises AssertionError with the matrices already assigned.  A single file of n >= 2 rows is split into int(0.7 n) drawn rows and their mirror images, and then the shapes always agree.", "quantifier": "all names, folders, file contents, mlrl readers and random draws", "why_tests_cant": "depends on every combination of file contents and random draws; the real files are not in the repository", "anchors": ["corset/data.py:47-123", "corset/utils_data.py:402-461"]}
{"id": "C83", "title": "The adviser order of blocks in the cluster plots", "statement": "order() sorts the blocks by decreasing importance (sum of the areas of their clusters; ties by block number) and inserts each at the end, at the beginning, or before the p-th block with p >= 2, at the place with the largest similarity to a neighbour (an inner place only if the block is at least as similar to both neighbours as they are to each other; ties: end, beginning, first).  The similarity is the weighted Jaccard similarity of the cluster sets of any members; it is symmetric, in [0,1], 1 iff the cluster sets are equal and 0 iff they are disjoint.  The gap between the first two blocks is never used, so the least important of three blocks is always outermost.", "quantifier": "all clusterings and shuffles", "why_tests_cant": "needs all clusterings; the missing gap only shows for particular overlaps", "anchors": ["biclus_viz/PlotCreator.py:253-369"]}
{"id": "C84", "title": "The ground truth of the greedy head samplers, and that CFTP_Greedy draws pairs from it", "statement": "After any fit of CFTP_Greedy or PruneGreedy, get_ground_truth_proba_for_pairs has exactly the pairs of a positive and a negative row as keys, each with the number of attributes of the first that the second lacks over the total of these numbers; get_ground_truth_proba_for_samples has exactly the attributes of positive discriminativity, each with its discriminativity over the same total; both sum to 1.  If the total is 0 the former raises ZeroDivisionError and the latter is empty.  sample_a_pair of CFTP_Greedy returns each pair with its ground-truth probability times 1-(1-q)^1024, no other pair, and None with probability (1-q)^1024.", "quantifier": "all binary matrices, 0/1 labels and set orders, first fits and refits", "why_tests_cant": "a statement about exact probabilities on all data", "anchors": ["corset/samplers/cftp_and_greedy.py:103-110", "corset/samplers/cftp_and_greedy.py:191-224", "corset/samplers/prune_and_greedy.py:151-184"]}
{"id": "C85", "title": "The number of steps reported by coupling from the past", "statement": "With return_details, CFTP.sample reports a power of two up to max_iters; the pair and the number of steps are independent: a pair is reported after 2^j steps with its share of the target weight times (1-q)^(2^(j-1)) - (1-q)^(2^j) (1-q for j = 0), so reported steps do not bias the sample; a failure reports the longest horizon.  If one side has no weight, a bare None is returned, so sample_once(return_cftp_details=True) of the discriminativity sampler raises TypeError exactly when there is nothing to propose; otherwise its sample and number of steps are independent in the same way.", "quantifier": "all weights, dominated proposals, horizons and data", "why_tests_cant": "independence of two random outputs is a statement about exact probabilities", "anchors": ["corset/samplers/cftp.py:134-171", "corset/samplers/discrim.py:136-163"]}
{"id": "C86", "title": "Repeated sampling gives independent samples", "statement": "sample(k) of the CFTP discriminativity, Boley discriminativity and CFTP_Greedy samplers, and CFTP.sample_k_times, return k results that are independent and distributed as one call, although the lists kept by CFTP are carried from one call to the next: the probability of a list of k results is the product of the probabilities of its entries, from every state of those lists.  After a fit, k calls of the discriminativity sampler return k given samples with the product of their discriminativity shares times (1-(1-q)^1024)^k, and k times None with probability (1-q)^(1024 k).", "quantifier": "all data, k, weights and initial states of the sampler", "why_tests_cant": "independence is a statement about exact probabilities of all joint outcomes", "anchors": ["corset/samplers/cftp.py:173-174", "corset/samplers/boley_cftp.py:179-183", "corset/samplers/discrim.py:165-169", "corset/samplers/boley_discrim.py:145-149", "corset/samplers/cftp_and_greedy.py:132-133"]}
{"id": "C87", "title": "MLflow experiments under concurrent workers", "statement": "create_experiment_if_needed on a name that does not exist creates the experiment and then fails with AttributeError, because it looks the new experiment up by name under its id; the next call succeeds.  If the experiment exists before the workers start, then under every schedule of the mlflow calls every worker gets its id.  If it does not, then under every schedule in which all workers finish exactly one of them creates it and fails with AttributeError, and every other one returns the id or fails with MlflowException; for two or more workers there is a schedule in which the latter happens.", "quantifier": "all stores, numbers of workers and interleavings", "why_tests_cant": "the claim is about every interleaving of concurrent workers", "anchors": ["corset/utils.py:169-179", "scripts/effect_of_min_feature_proba.py:17-34", "scripts/train_greedy_and_eval.py:17-34"]}
{"id": "C88", "title": "How good the greedily selected rules are", "statement": "GreedyDivMaxV2, V3 and GreedySubmod started without rules and with lambd >= 0, however fit ends: every selected rule is a candidate of its round, and against every list of as many rules that were candidates in all rounds, with k rules: k times the value of the selected rules is at least the quality of the others (for Submod: their value); twice the value is at least lambd times their diversity (V2, V3); if no KL quality of theirs exceeds rho times one of the selected rules, their quality and half their weighted diversity is within the factor 1+rho (V2); with rho = 1 the factor 1-(1-1/k)^k holds for the quality (V2), and always for the weighted coverage of Submod.  The second round of GreedyDivMax satisfies the same as V2 against every list of collected candidates.  Every candidate has such a value.  A factor 1/2 does not hold in general: with lambd = 0 a run of GreedyDivMaxV2 selects rules worth 25 ln 2 where rules worth 60 ln 2 are candidates in every round.", "quantifier": "all data, samplers, set orders, parameters and runs; all alternative lists of candidates", "why_tests_cant": "the comparison is with every alternative selection, for every run", "anchors": ["corset/greedy/diversity_maximization.py:73-100", "corset/greedy/diversity_maximization.py:103-207", "corset/greedy/divmax_v2.py:51-89", "corset/greedy/divmax_v3.py:10-13", "corset/greedy/submod.py:48-106", "corset/greedy/base.py:100-101"]}
{"id": "C89", "title": "What subgraph_stat reports", "statement": "On a graph without self-loops subgraph_stat returns exactly if any two positions of the node list hold joined nodes, and raises KeyError otherwise.  When it returns, the density is the sum of the weights over all ordered pairs of positions divided by the number of nodes (nan for an empty list), and is_clique carries no information: it is True for every directed graph and, for undirected graphs, True exactly for at most one node.  On every clique drawn by sample_clique from a graph with edges in both directions it returns, with is_clique True.", "quantifier": "all graphs, node lists, and draws of sample_clique", "why_tests_cant": "that is_clique is independent of the graph is a statement about all graphs", "anchors": ["corset/graph.py:132-144", "corset/graph.py:96-129"]}
{"id": "C90", "title": "What the experiment scripts run", "statement": "Arguments are bound to parameters as the language prescribes (positional, keyword, default; TypeError exactly if no binding exists).  Hence every run of scripts/effect_of_num_rules.py raises TypeError before the data are touched, and the test evaluation at the end of scripts/tune_and_eval.py raises AssertionError after loading the data, for every configuration; the other three scripts train the version and configuration they name, evaluated on the test part, or on the development part when tuning.  A search space exists exactly for the seven known dataset names (NotImplementedError for cal500, NameError otherwise); every configuration drawn from it builds a classifier with the thresholds of the table, lambd from 1 to the bound, the number of rules within the bounds, and the documented numbers of tails and heads, and every such pair of lambd and number of rules can be drawn.  The configurations of the other scripts exist for the names they know (train_greedy_and_eval.py: for every name) and always give numbers in their ranges.", "quantifier": "all signatures and calls, configurations, datasets, loaders, dataset names, versions and drawn configurations", "why_tests_cant": "the failing calls come after hours of tuning, and the drawn configurations are a continuum", "anchors": ["scripts/effect_of_num_rules.py:13-46", "scripts/tune_and_eval.py:73-156", "scripts/effect_of_min_feature_proba.py:17-75", "scripts/train_greedy_and_eval.py:17-77", "scripts/tune_greedy.py:44-129", "corset/exp.py:33-40"]}
{"id": "C91", "title": "The complete classifiers, samplers included", "statement": "GreedyCFTPDivMaxV2, V3 or GreedyCFTPDivMax, newly constructed with its own tail and head sampler, is fitted on any two 0/1 matrices with equally many rows (at least one).  Whatever the random numbers, thresholds and iteration orders of sets are: fit ends within n_max_rules + 1 rounds; it ends normally, or with TypeError (the head sampler returned None), or with AssertionError, which needs a label that every row has, or (GreedyCFTPDivMax) with InsufficientCandidates, which needs a label matrix without entries.  In each case there are at most n_max_rules rules; the head and tail of each are single columns or sets of pairwise co-occurring columns whose connection probabilities multiply to at least the threshold, some row has both, some row has neither, and the support of the rule is the set of rows that have both.  Each rule's tail occurs in a row where the rules selected before it left one of its labels uncovered (rules of the first round, for GreedyCFTPDivMax).  If fit ends normally with fewer rules than n_max_rules, every label of every row is covered by a rule (of the first round, for GreedyCFTPDivMax).  Every rule's tail has a label that the earlier rules (of the first round) left uncovered on some row of its support.  The TypeError does occur: if some label is in some rows and not in others, and every feature of a row with the label is a feature of every row without it, then some random numbers make fit of each class raise it.  The sequences of numbers stand for exactly the random outcomes: an outcome of a sampler is possible if and only if some sequence gives it.", "quantifier": "all 0/1 matrices, parameters, thresholds, sequences of random numbers, iteration orders of sets", "why_tests_cant": "a run depends on a sequence of random numbers of unbounded length, and the end of the loop depends on which of them come", "anchors": ["corset/greedy/diversity_maximization.py:103-232", "corset/greedy/divmax_v2.py:51-113", "corset/greedy/divmax_v3.py:8-37", "corset/greedy/base.py:20-37", "corset/samplers/uncovered_area.py:55-152", "corset/samplers/discrim.py:79-169"]}
{"id": "C92", "title": "What the tuning trials fit, score and report", "statement": "scripts/tune_and_eval.py: a trial splits the training rows, but fits each of its ten version 2 classifiers on all of them and scores it (micro_f1, macro_f1, hamming_accuracy, number of rules, coverage) on the development rows, which are therefore training rows of the classifier; it reports the means of the ten.  scripts/tune_greedy.py: each repetition loads and splits the data anew, into the same two parts each time; the classifier of the requested version is fitted on the rows of the first part alone and scored on the others, and every training row is in exactly one part; the trial reports the means of the ten results.  In both an exception of fit ends the trial, and a configuration without a dataset raises KeyError; a single training row cannot be split (ValueError).  scripts/effect_of_n_heads_per_tail.py: a run uses the given numbers of tails and heads, whatever the configuration says, and returns the configuration with these numbers and the ten results on the test data.", "quantifier": "all datasets, configurations, samplers, permutations, iteration orders of sets", "why_tests_cant": "that no row is scored by a classifier trained on it (or that all are) is a statement about every permutation and every dataset; the scripts need a ray cluster", "anchors": ["scripts/tune_and_eval.py:28-59", "scripts/tune_greedy.py:29-56", "scripts/effect_of_n_heads_per_tail.py:10-23"]}
{"id": "C93", "title": "The summary of the tuning runs ranks the configurations correctly", "statement": "scripts/summarize_tune_results.py: the table has a column for each parameter of the first run that is found, and one row for each combination of values of these parameters that a run was made with; the row shows the average and the sample standard deviation (nan for a single score) of the micro_f1 scores of the runs made with it, runs without a number being skipped. Each run that has all the parameters counts in exactly one row, and a run that lacks one in none. The rows are in descending order of the averages, rows without an average last, so no combination has a higher average than the first row. Only active runs of the experiment tune_greedy_v3 with the tag of the dataset are used. Without such a run the script raises IndexError, if the first run has no parameter ValueError, if no run has the metric KeyError; if the experiment does not exist, it is created and AttributeError is raised.", "quantifier": "all lists of runs, metrics (with nan), parameters, orders of equal averages", "why_tests_cant": "the parameters of the first run decide how all runs are grouped, and runs with other parameters are dropped or merged silently; the claim is about every list of runs", "anchors": ["scripts/summarize_tune_results.py:13-38"]}
{"id": "C94", "title": "csr_matrix_equal compares the values of all cells", "statement": "csr_matrix_equal of two valid matrices of the same shape is True exactly if every cell has the same value in both, the value being the sum of the slots of the cell (explicit zeros, duplicate slots and the order of the slots make no difference). For different shapes it raises AttributeError instead of returning False. Two lists of label sets of the same length, converted by convert_sets_to_matrix, are equal as matrices exactly if they are equal as lists of sets. array_product is the product: 1 for no factor, multiplicative over concatenation, independent of the order, zero exactly if a factor is, and in [0, 1] and at most each factor if these are in [0, 1].", "quantifier": "all valid sparse matrices, all lists of sets, iteration orders, all arrays of reals", "why_tests_cant": "the tests use csr_matrix_equal as the oracle for their own assertions; whether it can accept unequal matrices is a claim about all pairs of storages", "anchors": ["corset/utils.py:162-166", "corset/utils.py:86-90"]}
{"id": "C95", "title": "Directories and files are created without touching anything else", "statement": "makedir(d) creates the directory of the file d (or d itself with usedir=False) and the missing ones above it and changes nothing else; if a file is above it, it raises and nothing is created; if a file is at the place of the directory itself, it returns silently; for a file name without a directory it raises. makedir followed by save_json or save_pickle leaves the dumped object in the file, with nothing else changed but the directories above it, and loading reads it back; if the object cannot be dumped, the exception is passed on and the file has lost its former content. save_file works exactly if the directory exists and the path is no directory, and otherwise changes nothing. get_tempdir returns a new empty directory inside the given one (created if needed) or the default one.", "quantifier": "all file systems, current directories, absolute and relative paths, objects, formats", "why_tests_cant": "the behaviour depends on what already exists on the file system; the claim is about every state", "anchors": ["corset/utils.py:26-53"]}
{"id": "C96", "title": "What the scores on the training data say about the rules", "statement": "Predicting the training data X, Y with rules bound to it: the micro recall is at least the coverage ratio, with equality exactly if every label that is predicted and true is covered by some rule (so always if the precision is 1). The micro precision is 1 exactly if every rule's support is its head's support. The coverage ratio is 1 exactly if the rules cover every label of every row, the recall is 1 exactly if every label is predicted. The number of wrong predictions is at most the sum over the rules of the tail length times the number of rows with the head and without the tail. After fit (any samplers, all classes) these hold for the learned rules, and if fit of GreedyCFTPDivMaxV2 or V3 ends with fewer than n_max_rules rules, the training recall and the coverage ratio are 1; for GreedyCFTPDivMax this holds if the rules of the first round are kept.", "quantifier": "all valid training data with a label and at least two label columns, all rule lists bound to it, all samplers, all random numbers, all iteration orders", "why_tests_cant": "relates three scores computed by different code for every rule list and every random outcome of fit", "anchors": ["corset/greedy/base.py:71-86", "corset/greedy/base.py:115-130", "corset/evaluation.py:25-37", "corset/greedy/divmax_v2.py:51-113"]}
{"id": "C97", "title": "The dummy samplers return one uniform column", "statement": "DummyHeadSampler.sample_once and DummyTailSampler.sample_once return a set with exactly one feature (label); every feature (label) of the fitted matrix has probability 1/number of columns, nothing else can be returned, and with no columns they raise ValueError.", "quantifier": "all matrices, all random numbers", "why_tests_cant": "a test draws finitely often and cannot establish the probabilities or that nothing else is returned", "anchors": ["corset/samplers/dummy.py:4-26"]}
