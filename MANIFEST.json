{
 "claims": [
  {
   "property": "C01",
   "status": "proved",
   "theorems": [
    "C01_fifo_keeps_last_128"
   ],
   "note": ""
  },
  {
   "property": "C02",
   "status": "proved",
   "theorems": [
    "C02_fifo_add_readback"
   ],
   "note": ""
  },
  {
   "property": "C03",
   "status": "proved",
   "theorems": [
    "C03_fifo_retrieve_total"
   ],
   "note": "Retrieve is modelled as a pure function of the bucket because the Go method assigns nothing."
  },
  {
   "property": "C04",
   "status": "proved",
   "theorems": [
    "C04_fifo_getall_is_live_view"
   ],
   "note": ""
  },
  {
   "property": "C05",
   "status": "proved",
   "theorems": [
    "C05_bucket_agrees_with_fifo"
   ],
   "note": ""
  },
  {
   "property": "C06",
   "status": "partial",
   "theorems": [
    "C06_bucket_getall_pure_refuted",
    "C06_bucket_getall_frame_partial"
   ],
   "note": "REFUTED as stated: GetAll writes a -1 sentinel into the first unfilled slot. The _partial theorem proves that no other slot changes."
  },
  {
   "property": "C07",
   "status": "proved",
   "theorems": [
    "C07_lsh_is_map_of_fifos"
   ],
   "note": ""
  },
  {
   "property": "C08",
   "status": "proved",
   "theorems": [
    "C08_lsh_new_panics_iff",
    "C08_lsh_calls_panic_iff"
   ],
   "note": "Panics of make for lengths too large for memory are not modelled."
  },
  {
   "property": "C09",
   "status": "proved",
   "theorems": [
    "C09_srp_index_is_binary",
    "C09_srp_index_injective",
    "C09_srp_lookup_panics_iff_range_too_small"
   ],
   "note": ""
  },
  {
   "property": "C10",
   "status": "proved",
   "theorems": [
    "C10_wta_index_base4",
    "C10_wta_lookup_panics_iff_range_too_small"
   ],
   "note": ""
  },
  {
   "property": "C11",
   "status": "partial",
   "theorems": [
    "C11_dwta_index_injective_refuted",
    "C11_dwta_index_injective_partial"
   ],
   "note": "REFUTED as stated: digits 0..7 are encoded in base 4 because the code takes floor(ln 8) = 2 as the digit width. The _partial theorem proves injectivity when digits are below 4."
  },
  {
   "property": "C12",
   "status": "proved",
   "theorems": [
    "C12_minhash_index_in_range"
   ],
   "note": ""
  },
  {
   "property": "C13",
   "status": "proved",
   "theorems": [
    "C13_index_depends_only_on_own_window",
    "C13_hashes_to_index_panics_iff"
   ],
   "note": ""
  },
  {
   "property": "C14",
   "status": "proved",
   "theorems": [
    "C14_wta_tables_are_permutations"
   ],
   "note": ""
  },
  {
   "property": "C15",
   "status": "proved",
   "theorems": [
    "C15_wta_hash_is_first_max",
    "C15_first_max_unique"
   ],
   "note": ""
  },
  {
   "property": "C16",
   "status": "proved",
   "theorems": [
    "C16_wta_depends_only_on_order"
   ],
   "note": ""
  },
  {
   "property": "C17",
   "status": "partial",
   "theorems": [
    "C17_wta_sparse_equals_dense_refuted",
    "C17_wta_sparse_panics_refuted",
    "C17_wta_sparse_equals_dense_partial",
    "C17_wta_sparse_is_dense_of_values_partial"
   ],
   "note": "REFUTED as stated. The _partial theorems give the strongest true version; see the comments beside them."
  },
  {
   "property": "C18",
   "status": "proved",
   "theorems": [
    "C18_dwta_bins_have_eight_slots"
   ],
   "note": ""
  },
  {
   "property": "C19",
   "status": "proved",
   "theorems": [
    "C19_dwta_dense_hash_is_winner_position"
   ],
   "note": ""
  },
  {
   "property": "C20",
   "status": "proved",
   "theorems": [
    "C20_dwta_hashes_are_digits"
   ],
   "note": ""
  },
  {
   "property": "C21",
   "status": "proved",
   "theorems": [
    "C21_dwta_densification",
    "C21_dwta_densification_easy"
   ],
   "note": ""
  },
  {
   "property": "C22",
   "status": "partial",
   "theorems": [
    "C22_dwta_sparse_honours_indices_refuted",
    "C22_dwta_ignores_indices_refuted",
    "C22_dwta_sparse_honours_indices_partial"
   ],
   "note": "REFUTED as stated. The _partial theorem gives the strongest true version."
  },
  {
   "property": "C23",
   "status": "partial",
   "theorems": [
    "C23_probes_reach_every_bin_refuted",
    "C23_probes_in_range_partial"
   ],
   "note": "REFUTED as stated: the seed is an odd multiplier but the probe sequence can be constant. The _partial theorem proves that every probe is in range."
  },
  {
   "property": "C24",
   "status": "proved",
   "theorems": [
    "C24_minhash_map_in_range"
   ],
   "note": ""
  },
  {
   "property": "C25",
   "status": "partial",
   "theorems": [
    "C25_minhash_every_width_refuted",
    "C25_minhash_rounding_refuted",
    "C25_minhash_every_width_partial"
   ],
   "note": "REFUTED as stated: widths >= 64 give MinInt64 ids (hashing panics), and widths 53..63 can round an id out of range. The _partial theorem covers widths up to 52."
  },
  {
   "property": "C26",
   "status": "proved",
   "theorems": [
    "C26_minhash_is_max_index"
   ],
   "note": ""
  },
  {
   "property": "C27",
   "status": "partial",
   "theorems": [
    "C27_minhash_easy_keeps_largest_refuted",
    "C27_minhash_easy_keeps_smallest_partial"
   ],
   "note": "REFUTED as stated: the heap evicts the largest value, so the topK smallest are hashed. The _partial theorem proves exactly that, for every input."
  },
  {
   "property": "C28",
   "status": "proved",
   "theorems": [
    "C28_minhash_easy_variants_agree",
    "C28_minhash_easy_panics"
   ],
   "note": ""
  },
  {
   "property": "C29",
   "status": "proved",
   "theorems": [
    "C29_srp_sparse_equals_dense"
   ],
   "note": ""
  },
  {
   "property": "C30",
   "status": "partial",
   "theorems": [
    "C30_srp_order_independent_refuted",
    "C30_srp_order_independent_partial"
   ],
   "note": "REFUTED as stated: the merge loop needs increasing indices. The _partial theorem covers sorted lists."
  },
  {
   "property": "C31",
   "status": "proved",
   "theorems": [
    "C31_srp_samples_distinct_features"
   ],
   "note": ""
  },
  {
   "property": "C32",
   "status": "proved",
   "theorems": [
    "C32_srp_negation_flips"
   ],
   "note": ""
  },
  {
   "property": "C33",
   "status": "proved",
   "theorems": [
    "C33_scanner_total",
    "C33_sticky"
   ],
   "note": ""
  },
  {
   "property": "C34",
   "status": "proved",
   "theorems": [
    "C34_example_in_bounds"
   ],
   "note": ""
  },
  {
   "property": "C35",
   "status": "proved",
   "theorems": [
    "C35_scan_file",
    "C35_scan_write"
   ],
   "note": "For any file whose lines are in the format and for the output of a concrete writer; lines shorter than 64 KiB (the limit of bufio.Scanner), reader without 101 empty reads in a row, ParseFloat/formatting abstract."
  },
  {
   "property": "C36",
   "status": "proved",
   "theorems": [
    "C36_no_truncated_line",
    "C36_scanner_error"
   ],
   "note": "Err is the reader's error unless a line exceeds 64 KiB or the reader stalls, which bufio.Scanner reports as its own errors."
  },
  {
   "property": "C37",
   "status": "proved",
   "theorems": [
    "C37_line_number_start",
    "C37_line_number_scan"
   ],
   "note": ""
  },
  {
   "property": "C38",
   "status": "proved",
   "theorems": [
    "C38_never_not_enough_fields"
   ],
   "note": ""
  },
  {
   "property": "C39",
   "status": "partial",
   "theorems": [
    "C39_total_points_refuted",
    "C39_all_lines_delivered_partial"
   ],
   "note": "REFUTED: the scanner does not compare the number of examples with TotalPoints. Partial: one example per line after the header."
  },
  {
   "property": "C40",
   "status": "partial",
   "theorems": [
    "C40_slices_refuted",
    "C40_scalar_refuted",
    "C40_partial",
    "C40_reads",
    "C40_constructed"
   ],
   "note": "REFUTED as stated: clones share the float slices (C40_slices_refuted) and may share the base record (C40_scalar_refuted). The _partial theorem proves isolation for scalar and input-slot setters when no part carries the cowId."
  },
  {
   "property": "C41",
   "status": "proved",
   "theorems": [
    "C41",
    "C41_pointer",
    "C41_update",
    "C41_panics"
   ],
   "note": "For nodes whose parts do not overlap and, for BackPropagate, do not overlap with the previous layer (the situation layer.New creates)."
  },
  {
   "property": "C42",
   "status": "proved",
   "theorems": [
    "C42_value",
    "C42_kept",
    "C42_returns"
   ],
   "note": ""
  },
  {
   "property": "C43",
   "status": "proved",
   "theorems": [
    "C43_adam",
    "C43_plain",
    "C43_returns_iff"
   ],
   "note": "Closed form for distinct listed nodes; returns-iff without that restriction."
  },
  {
   "property": "C44",
   "status": "partial",
   "theorems": [
    "C44_refuted",
    "C44_actual",
    "C44_partial"
   ],
   "note": "REFUTED as stated: the first layer adds learningRate + delta. C44_actual gives the exact effect; _partial the other cases."
  },
  {
   "property": "C45",
   "status": "partial",
   "theorems": [
    "C45_refuted",
    "C45_immediate",
    "C45_partial"
   ],
   "note": "REFUTED as stated: mirror weights and weights are one slice. _partial: with Adam, and for the bias."
  },
  {
   "property": "C46",
   "status": "proved",
   "theorems": [
    "C46_sampling"
   ],
   "note": "For any cowId, any retrieval result and any fallback order that is a permutation (C53)."
  },
  {
   "property": "C47",
   "status": "partial",
   "theorems": [
    "C47_duplicate_labels_refuted",
    "C47_active_list_partial",
    "C47_small_layers_partial"
   ],
   "note": "REFUTED as stated: every duplicate label adds a trailing entry for node 0 and takes away one random node. C47_active_list_partial gives the exact list."
  },
  {
   "property": "C48",
   "status": "partial",
   "theorems": [
    "C48_exact",
    "C48_labels_partial",
    "C48_labels_refuted"
   ],
   "note": "The exact active set is proved (C48_exact); the claim about labels is REFUTED for L <= 2 and proved for L >= 3."
  },
  {
   "property": "C49",
   "status": "proved",
   "theorems": [
    "C49_random"
   ],
   "note": "If the call returns: the rejection loop of the code need not end."
  },
  {
   "property": "C50",
   "status": "partial",
   "theorems": [
    "C50_topk_refuted",
    "C50_ranking_partial"
   ],
   "note": "REFUTED as stated: on every softmax layer the call panics whenever floor(numNodes*sparsity) < numNodes. The _partial theorem describes the calls that return."
  },
  {
   "property": "C51",
   "status": "proved",
   "theorems": [
    "C51_dense",
    "C51_tables_not_read"
   ],
   "note": ""
  },
  {
   "property": "C52",
   "status": "proved",
   "theorems": [
    "C52_softmax",
    "C52_exponents"
   ],
   "note": "C52_exponents uses float facts (Flocq, stdlib real axioms): no exponent is positive, for representable weights, biases and inputs. The exponential itself is an arbitrary function."
  },
  {
   "property": "C53",
   "status": "proved",
   "theorems": [
    "C53_random_order"
   ],
   "note": ""
  },
  {
   "property": "C54",
   "status": "proved",
   "theorems": [
    "C54_count"
   ],
   "note": "The forward pass is described by an independent relation (inference): features, chosen nodes, weighted sums, ReLU/softmax, sparsity entries num..2*num-1. The class is the first greatest value, or 0 if no node is active."
  },
  {
   "property": "C55",
   "status": "proved",
   "theorems": [
    "C55_unchanged"
   ],
   "note": "Weights, moments, accumulators, biases, tables, hash functions and the fallback order are all unchanged; only the slots and normalisation constants of the predicted inputs may differ."
  },
  {
   "property": "C56",
   "status": "proved",
   "theorems": [
    "C56_training"
   ],
   "note": "The call in closed form: forward pass, errors, gradients (plain and Adam), update; afterwards no gradient is left. LoadWeight=false; one cowId."
  },
  {
   "property": "C57",
   "status": "proved",
   "theorems": [
    "C57_rehash",
    "C57_new_predict",
    "C57_predict"
   ],
   "note": "After ProcessInput with rehash, after New, and kept by PredictClass. RangePow between 0 and 62 (with 63 New panics, above there are no buckets)."
  },
  {
   "property": "C58",
   "status": "partial",
   "theorems": [
    "C58_partial",
    "C58_sampling",
    "C58_sampling_ends",
    "C58_dense",
    "C58_mode3_refuted",
    "C58_mode2_refuted",
    "C58_wta_refuted",
    "C58_minhash_refuted"
   ],
   "note": "C58_partial: for every configuration meeting well_formed (Spec/SafeSpec.v), New succeeds from every memory and random stream and every list of fitting calls succeeds. C58_dense: dense networks with any hash function or mode. Missing: sparse layers with WTA or densified minhash hashing (C58_wta_refuted, C58_minhash_refuted show that they fail), a sparse softmax layer in mode 3 (C58_mode3_refuted), and LoadWeight. Mode 2: C58_sampling shows that the only thing that can go wrong with a sparse softmax layer is that the sampling loop does not end; C58_sampling_ends that it ends whenever the random numbers leave no node out and no more active nodes are asked for than there are nodes; C58_mode2_refuted that with more asked for than there are, training never returns."
  },
  {
   "property": "C59",
   "status": "proved",
   "theorems": [
    "C59_schedule",
    "C59_panics"
   ],
   "note": "For counters that do not overflow int64. The first batch panics with a division by zero (C59_panics)."
  },
  {
   "property": "C60",
   "status": "proved",
   "theorems": [
    "C60_epoch",
    "C60_batches"
   ],
   "note": "Training data: any file that delivers the examples (every well-formed file does, C35)."
  },
  {
   "property": "C61",
   "status": "proved",
   "theorems": [
    "C61_types",
    "C61_no_layers"
   ],
   "note": "C61_no_layers is about the whole program."
  },
  {
   "property": "C62",
   "status": "proved",
   "theorems": [
    "C62_accuracy",
    "C62_denominator",
    "C62_program",
    "C62_no_batches"
   ],
   "note": "C62_program covers every line the program logs; C62_no_batches: with fewer test records than a batch the logged value is NaN. numBatchesTest*BatchSize <= 2^53. Counts are those PredictClass returns; when the file is short the denominator stays numBatchesTest*BatchSize."
  },
  {
   "property": "C63",
   "status": "proved",
   "theorems": [
    "C63_dwta_seeds_positive_odd",
    "C63_lsh_multipliers_positive_odd",
    "C63_minhash_seeds_positive_odd"
   ],
   "note": "Three theorems, one per package that draws seeds: lsh, densified_wta_hash, densified_minhash."
  },
  {
   "property": "C64",
   "status": "proved",
   "theorems": [
    "C64_live",
    "C64_unique"
   ],
   "note": "Weights are not loaded (LoadWeight=false); calls use one cowId."
  },
  {
   "property": "C65",
   "status": "proved",
   "theorems": [
    "C65_shape"
   ],
   "note": "LoadWeight=false; one cowId."
  },
  {
   "property": "C66",
   "status": "proved",
   "theorems": [
    "C66_new"
   ],
   "note": "LoadWeight=false."
  },
  {
   "property": "C67",
   "status": "proved",
   "theorems": [
    "C67_program"
   ],
   "note": "Equality of final memories or panics; the log is a function of the same calls (C62, C60)."
  },
  {
   "property": "C68",
   "status": "proved",
   "theorems": [
    "C68_program",
    "C68_sampling"
   ],
   "note": "Hypotheses are those of C58_partial plus the schedule bounds; C58 refutes the excluded hash functions and modes. C68_sampling adds the sampling mode 2 when the random stream reaches every node and the labels leave room."
  },
  {
   "property": "C69",
   "status": "proved",
   "theorems": [
    "C69_moments"
   ],
   "note": "Uses Flocq (stdlib real axioms). A second moment may be NaN or infinite; it is never negative."
  },
  {
   "property": "C70",
   "status": "proved",
   "theorems": [
    "C70_adam",
    "C70_sgd"
   ],
   "note": "Two theorems, with and without Adam. The bias of the first layer moves by rate plus error without Adam, as in the code (Spec/BatchSpec.v, sgd_bias)."
  },
  {
   "property": "C71",
   "status": "proved",
   "theorems": [
    "C71_untouched",
    "C71_unseen_feature"
   ],
   "note": "With Adam the step sizes must be finite numbers (rate_ok): an infinite rate times a zero moment is NaN. Uses Flocq for Adam."
  },
  {
   "property": "C72",
   "status": "proved",
   "theorems": [
    "C72_dense",
    "C72_batches"
   ],
   "note": "The predicted class is given as a function of the parameters (Spec/DenseSpec.v, dense_class); C72_batches compares two networks with the same parameters in any two memories."
  },
  {
   "property": "C73",
   "status": "proved",
   "theorems": [
    "C73_training",
    "C73_inference"
   ],
   "note": "Assumptions on math.Exp and math.Pow are the record math_ok (Spec/RangeSpec.v). The bound on the number of labels is needed: the target 1/labels is not divided by the batch size (C73_ex shows a label pushed down)."
  },
  {
   "property": "C74",
   "status": "proved",
   "theorems": [
    "C74_accepted",
    "C74_values",
    "C74_file_accepted",
    "C74_file",
    "C74_round_trip",
    "C74_program",
    "C74_runs"
   ],
   "note": "The file system and the JSON grammar are outside the model (record loader in Model/Load.v); what json.Unmarshal does with a JSON value for the Configuration struct is modelled. A list setting given twice in one object is left out of C74_values. Key comparison folds ASCII letters only. C74_runs uses Flocq through C68."
  },
  {
   "property": "C75",
   "status": "partial",
   "theorems": [
    "C75_alias",
    "C75_alias_calls",
    "C75_result",
    "C75_isolation_refuted",
    "C75_lost_update_refuted"
   ],
   "note": "Isolation and irrelevance of the id are both refuted on networks built by New; the interchangeability of networks that differ in the id, and what a call returns, are proved."
  },
  {
   "property": "C76",
   "status": "proved",
   "theorems": [
    "C76_train",
    "C76_predict"
   ],
   "note": "Mode 2 with sampled layers is excluded: there the labels start the list of active nodes in their order."
  },
  {
   "property": "C77",
   "status": "partial",
   "theorems": [
    "C77_code_sgd",
    "C77_code_adam",
    "C77_gradient",
    "C77_constant",
    "C77_negative_refuted",
    "C77_batch_refuted",
    "C77_batch_gradient",
    "C77_bounded",
    "C77_batch_unbounded"
   ],
   "note": "C77_code_sgd/adam tie the code (binary64) to generic forward and backward passes, C77_gradient proves that the same passes over the reals (batch size 1, no small constant) are the gradient. Refuted: with a larger batch only the share, not the target, is divided by the batch size (C77_batch_gradient says what the errors are the gradient of, C77_batch_unbounded that this has no lower bound); with all weighted sums negative the small constant swamps the shares. Rounding is not bounded. The first-layer bias step of the code without Adam (lr + delta instead of lr * delta) is C70, and is not a gradient step."
  },
  {
   "property": "C78",
   "status": "proved",
   "theorems": [
    "C78_activation",
    "C78_projection",
    "C78_decimals"
   ],
   "note": "binary64 versus exact real sums (Flocq); C78_activation bounds GetActivation, C78_projection says when a hash bit is the sign of the exact sum."
  },
  {
   "property": "C79",
   "status": "proved",
   "theorems": [
    "C79_rehash",
    "C79_new"
   ],
   "note": "C79_rehash after a rehashing call, C79_new for new networks; Spec/RetrieveSpec.v says what a lookup returns."
  },
  {
   "property": "C80",
   "status": "proved",
   "theorems": [
    "C80_finite",
    "C80_step"
   ],
   "note": "binary64 (Flocq) over whole histories; C80_finite: no overflow, C80_step: size of one step. Of the exponential it is only assumed that it maps finite arguments that are not positive into [0, 1]; the limits are stated in training_within (Spec/BoundSpec.v), C80_ex_size shows how far they reach."
  },
  {
   "property": "C81",
   "status": "proved",
   "theorems": [
    "C81_shuffle",
    "C81_new",
    "C81_update"
   ],
   "note": "that the choices and the orders are as many (n!) is left to the reader: choices in Spec/ShuffleSpec.v lists n*(n-1)*...*2 sequences, and the theorem gives for each order the one sequence that makes it. The library draws an integer below n from its source; the model takes the next number of the stream modulo n."
  },
  {
   "property": "C82",
   "status": "proved",
   "theorems": [
    "C82_others",
    "C82_history",
    "C82_same"
   ],
   "note": "C82_others: one step; C82_history: whole programs, with history of Spec/BatchSpec.v (the relation of C70) over the calls on the network itself; C82_same: results and panics. The random source is shared, as in the code, so the draws a network gets do depend on the others. Calls under another id are the subject of C40 and C75."
  },
  {
   "property": "C83",
   "status": "proved",
   "theorems": [
    "C83_dwta_dense",
    "C83_dwta_sparse",
    "C83_minhash",
    "C83_scale",
    "C83_projection"
   ],
   "note": "same_order and scaled_by are in Spec/ScaleSpec.v. C83_dwta_dense, C83_dwta_sparse, C83_minhash: order only (the WTA hash is C16). C83_scale: exact multiples. C83_projection: powers of two in binary64; other factors can change the rounding of the sums, so nothing is claimed for them."
  },
  {
   "property": "C84",
   "status": "proved",
   "theorems": [
    "C84_class",
    "C84_exp"
   ],
   "note": "exp is a parameter: C84_class assumes that it separates arguments d apart on [-600, 0], C84_exp derives this from accuracy to 2^-50. Nothing is claimed for examples without a clear winner (rounding may then decide) or for networks that sample nodes."
  },
  {
   "property": "C85",
   "status": "partial",
   "theorems": [
    "C85_code",
    "C85_code_adam",
    "C85_descent",
    "C85_adam",
    "C85_sgd",
    "C85_code_far",
    "C85_code_refuted"
   ],
   "note": "C85_code and C85_code_adam tie the code to the steps; the same steps over the reals: C85_adam and C85_sgd with C85_descent show that the first Adam step and the corrected plain step lower the loss. The plain step of the code does not: BackPropagateFirstLayer adds lr + delta to the bias of a first-layer node instead of lr * delta (C85_code_refuted; C85_code_far: the loss can rise by 100 for every rate below 1/100). Batch size 1, without the small constant and rounding (see C77)."
  },
  {
   "property": "C86",
   "status": "proved",
   "theorems": [
    "C86_dwta_slots",
    "C86_wta_winners",
    "C86_wta_collide",
    "C86_dwta_collide",
    "C86_every_bin"
   ],
   "note": "Counting over all n! outcomes of the shuffle. Bins that straddle two orders (possible when the number of features is not a multiple of eight) are outside the statement, as are vectors with ties."
  },
  {
   "property": "C87",
   "status": "proved",
   "theorems": [
    "C87_hidden",
    "C87_first",
    "C87_returns",
    "C87_perturb"
   ],
   "note": "Exact, for all float64 values. That the accumulated gradients are derivatives of the loss is C77."
  },
  {
   "property": "C88",
   "status": "proved",
   "theorems": [
    "C88_features",
    "C88_balance",
    "C88_unbiased"
   ],
   "note": "Exact counts over all choices, with no condition on the values: zero and NaN sums are counted."
  },
  {
   "property": "C89",
   "status": "proved",
   "theorems": [
    "C89_network",
    "C89_sets",
    "C89_nodes"
   ],
   "note": "Exact counts over all the orders; that New and UpdateRandomNodes make every order equally often is C81. Duplicate labels are C47. C89_network: in a network made by New from a well-formed configuration and used in any way, every query with fitting arguments returns, so the counts hold without assuming anything about the layer."
  },
  {
   "property": "C90",
   "status": "proved",
   "theorems": [
    "C90_sequences",
    "C90_nodes",
    "C90_network"
   ],
   "note": "Exact counts over all the draws. That the sampling ends, and when it does not, is C58; that the nodes are distinct and in range is C49. C90_network: the same for a network made by New: the queries return as soon as the draws contain enough different other nodes."
  },
  {
   "property": "C91",
   "status": "proved",
   "theorems": [
    "C91_idle",
    "C91_perturb"
   ],
   "note": "LayerMode3 is excluded because it reads the weights of every node in order to choose the active ones."
  },
  {
   "property": "C92",
   "status": "proved",
   "theorems": [
    "C92_query",
    "C92_inference"
   ],
   "note": "The outputs of the forward passes are those of C54 and C70. In modes 2 and 3 a layer that is not softmax keeps whatever list it was given (C49, C50)."
  },
  {
   "property": "C93",
   "status": "proved",
   "theorems": [
    "C93_evaluate",
    "C93_program",
    "C93_same"
   ],
   "note": "For prediction sparsities 1 (dense prediction); the sampled case has no function of the parameters to compare with, because the tables choose the nodes. C93_same states equality of the numbers reported (real values of the floats)."
  },
  {
   "property": "C94",
   "status": "partial",
   "theorems": [
    "C94_winner",
    "C94_repeat",
    "C94_dense",
    "C94_random_refuted"
   ],
   "note": "Refuted in general by C94_random_refuted (LayerMode2). C94_dense and C94_winner/C94_repeat are the true cases; in LayerMode4 the answer depends on the random fill, whose distribution is C89."
  },
  {
   "property": "C95",
   "status": "partial",
   "theorems": [
    "C95_sgd",
    "C95_sgd_predictions",
    "C95_adam",
    "C95_adam_refuted"
   ],
   "note": "Refuted with Adam (C95_adam_refuted); C95_adam says exactly what the call does there. C95_sgd and C95_sgd_predictions are the full claim without Adam. C95_reached shows that the program makes such calls."
  },
  {
   "property": "C96",
   "status": "proved",
   "theorems": [
    "C96_parameters",
    "C96_predictions"
   ],
   "note": "Two networks, possibly with different environments, K, L, RangePow and random sources, are compared by induction over both histories (C96_parameters); the counts of dense predictions follow (C96_predictions). The exponential, the power function and the optimiser must be the same; both histories must return."
  }
 ]
}