# Formal model of nlpodyssey/goslide in Rocq (Coq 8.16.1)

## Approach

* `theories/Model/*.v`: executable Gallina model of the Go code, one definition per
  Go function, each citing file and lines. No proofs there.
* `theories/Spec/*.v`: small independent specifications used in theorem statements.
* `theories/Proofs/*.v`: lemmas.
* `theories/Properties/*.v`: only the property theorems, each closed by `exact`,
  with `Print Assumptions`, and non-vacuity `Example`s beside them.

## Modelling conventions

* `int` is `Z` in the int64 range; wrap-around (`wrap64`, `u64`) is written wherever the
  code can overflow (hash arithmetic, bucket counters). `uint` is 64-bit (amd64).
* `float64` is `Coq.Floats.SpecFloat.spec_float` with precision 53, emax 1024
  (IEEE binary64, one NaN), no axioms; no fused multiply-add (amd64).
* Panics are values: `res A := Ok a | Panic why`. Every slice access is bounds-checked.
* Randomness (`math/rand`, `maphash`, map iteration order) is an arbitrary stream of
  integers, theorems quantify over it. `math.Exp/Log2/Pow` are oracle functions, theorems
  quantify over them (hypotheses on them are explicit in the statement).
* Pointers/slices with observable aliasing (node, layer, network; fifo GetAll) use an
  explicit heap.
* Clock, printing, profiling are not modelled.

## Plan per property

| Property | Model | Proof |
|---|---|---|
| C01-C04 | Model/Fifo.v (backing array + len + wrapped counter) | invariant over op lists, refinement to "last 128 of history" |
| C05-C06 | Model/Bucket.v | invariant; C06 expected false (GetAll writes a -1 sentinel) |
| C07-C13, C63 | Model/Lsh.v | refinement to a map (table,index) -> history; digit-sum arithmetic; C11 expected false (natural log used for bit width) |
| C14-C17 | Model/Wta.v | Fisher-Yates permutation; argmax fold invariant; float ceiling exactness via Flocq; C17 expected false |
| C18-C23 | Model/Dwta.v | bijection of table entries; argmax; bounded probe loop; C22, C23 expected false |
| C24-C28 | Model/Minhash.v, Model/GoHeap.v (container/heap) | heap invariant, multiset reasoning; C25, C27 expected false |
| C29-C32 | Model/Srp.v | float signed-zero simulation; merge loop vs dense loop; C30 false |
| C33-C39 | Model/Xcrepo.v, Model/Bufio.v (strings.Split, Atoi, bufio.Scanner) | induction over lines / calls; C39 false |
| C40-C45 | Model/Node.v over Model/Mem.v (heap) | heap frame lemmas; C40, C44, C45 expected false in the full form |
| C46-C53 | Model/Layer.v | loop invariants; C47, C48, C50 false in the full form |
| C54-C58, C64-C66 | Model/Network.v | refinement of the heap program to a pure reference (Spec/NetRef.v), invariants over call sequences |
| C59-C62, C67, C68 | Model/Main.v | arithmetic, list induction; the program as New followed by a call sequence |
| C69-C71 | Model/Network.v | invariants over histories of passes (Spec/BatchSpec.v); sign and zero lemmas for binary64 |
| C72 | Model/Network.v | the reference for dense layers as a function of the parameters; permutation of the examples |
| C73 | Model/Network.v | closure of binary64 under the operations used; monotone rounding (Flocq) for sums and quotients |
| C74 | Model/Load.v (decoding of a JSON value into the configuration) | effect of one member on each setting, induction over the members |
| C75, C76 | Model/Network.v | unfolding of the copies; equality of computations under permuted labels, bottom up through selection, query and back-propagation |
| C77 | Model/Node.v, Layer.v, Network.v | one definition of the passes over any arithmetic; the code refines it over binary64; over the reals the chain rule by induction over the layers with the derivatives of the standard library |
| C78 | Model/Node.v, Srp.v | the folds of additions against exact real sums, error bound by induction over the list with Flocq's relative and absolute rounding errors (Proofs/RoundProofs.v) |
| C79 | Model/Lsh.v, Layer.v, Network.v and the hash functions | from `findable` (C57), which speaks about every lookup, and the agreement of sparse and dense hashes (C17, C22, C28, C29) for inputs that list a vector in full (Proofs/RetrieveProofs.v) |
| C80 | Model/Node.v, Layer.v, Network.v with binary64 arithmetic | rounding-error bounds for every operation (Flocq), an invariant of Adam's moments (the square of the first is bounded by the second), bounds through the layers forwards and backwards, induction over histories (Proofs/BoundFloat.v, BoundPass.v, BoundProofs.v) |
| C81 | Model/Base.v (shuffle), Layer.v (New, UpdateRandomNodes) | induction on the shuffle from the top index down; the draws of New after the shuffle do not touch the order (Proofs/ShuffleProofs.v) |
| C82 | Model/Network.v, Layer.v, Node.v with several networks in one memory (Spec/SystemSpec.v) | the refinement of C64 carried out with a frame: any property of memory that no write to the objects of one network can break is kept by its calls (Proofs/NetFrame.v, Stable); objects made by New are disjoint from all older ones (Proofs/NetNew.v); induction over programs (Proofs/SystemProofs.v) |
| C83 | Model/Dwta.v, Minhash.v, GoHeap.v, Srp.v, Wta.v | two runs side by side (rres of Proofs/ScaleProofs.v): states stay related because every comparison has the same outcome; projections: addition rounds as without a least exponent, so rounding commutes with powers of two (Proofs/ScaleFloat.v) |
| C84 | Model/Network.v, Layer.v, Node.v with binary64 arithmetic | the dense prediction of C72; an error bound for each sum (C78) carried through the layers, with ReLU a contraction; at the last layer the shift by the maximum and an exp that separates arguments keep the winner (Proofs/ScoreProofs.v); an accurate exp separates, by real analysis (Proofs/ScoreExp.v) |
| C85 | Model/Network.v, Layer.v, Node.v; Spec/DescentSpec.v (steps over an abstract arithmetic) | the update of weights and biases by one training call is the step of the specification over binary64; over the reals the derivative of the loss along the curve of moving networks is minus a sum of squares, by the chain rule through the layers; a counterexample for the first layer's bias step |
| C86 | Model/Wta.v, Dwta.v, Shuffle; Spec/BiasSpec.v (all choice sequences, sets of eight features, their winner) | the choices of one shuffle enumerate all orders once (C81); a bin inside an order is a window of it; exchanging two slots of the window is a bijection on the orders, so no slot is favoured; permuting the features is one too, so no set of eight is favoured; the hash is the winner of the window |
| C87 | Model/Node.v (GetGradient, PurturbWeight) | the closed forms of back-propagation (C43) for one input, and that negation commutes with the product of two floats |
| C88 | Model/Srp.v; Spec/SignSpec.v (all sign sequences, the draws before a projection) | closed form of the tables by position in the random stream; the orders are enumerated once by the choices (C81); flipping every sign is a bijection that negates the rounded sum |
| C89 | Model/Layer.v (select_mode4, whose start is the draw modulo the number of nodes); Spec/FillSpec.v (all the orders, the nodes that are not candidates) | relabelling the other nodes is a bijection of the orders that carries the added nodes along; the classes it makes have equal size; for a network made by New, totality of the query (C58) for every order discharges the assumptions |
| C90 | Model/Layer.v (select_mode2); Spec/DrawSpec.v (all the sequences of draws, first occurrences, arrangements) | closed form: the labels and then the first occurrences of the other nodes among the draws; relabelling the other nodes is a bijection of the sequences of draws that carries the added nodes along; for a network made by New the queries return because the draws outlast the loop |
| C91 | Model/Network.v, Model/Layer.v, Model/Node.v; Spec/LocalSpec.v (networks that differ only in some nodes and weights, idle nodes, unused inputs) | simulation between the two networks along the forward pass: a prediction marks every node it reads and unmarks none, so a node that is unmarked at the end was never read, and a layer receives values only from the features or from marked nodes |
| C92 | Model/Layer.v, Model/Lsh.v, Model/Fifo.v; Spec/WorkSpec.v (the bounds) | every looked-up bucket of a reachable table holds at most 128 entries (C01, C07); counting: distinct nodes with three entries each, or the distinct candidates plus at most enough fallback nodes to reach 1000 |
| C93 | Model/Main.v, Model/Network.v; Spec/ReportSpec.v (the number of correct answers as a function of the parameters) | the counts of the batches (C62) are counts of dense predictions (C72), each prediction leaves the parameters alone (C32), and the batches cut a prefix of the file; for the program the last evaluation is split off the loop, with the network alive before it |
| C94 | Model/Network.v, Model/Layer.v (map iteration order drawn from the random source); Spec/RepeatSpec.v (the clear winner, from parameters, hash functions and tables alone) | the inference relation of C54 with every layer but the last dense (C72) gives the input of the last layer; LayerMode1's active set is fixed by the tables up to order (C48), and neither the greatest activation nor the strict maximum depends on the order; the general claim is refuted by a computed run |
| C95 | Model/Network.v, Model/Main.v; Spec/EmptySpec.v (the claim, in terms of PredictClass before and after) | C70 with no passes; the shape of the network (C65) turns equality node by node into equality of all parameters, and C72 into equality of predictions; with Adam refuted by a computed run of nine training calls |
| C96 | Model/Network.v, Model/Layer.v, Model/Node.v; Spec/DenseTrainSpec.v (what two networks must have in common): two networks with dense training sparsities and the same normal draws, sizes, types, rate and optimiser, each with its own history of calls; the same training calls in both. | Dense passes are unique: the outputs are functions of the parameters, and the errors are determined from the last layer backwards. Hence every call does the same to both networks; induction over both histories, skipping predictions. |

A property that is false of the code gets a `_refuted` theorem with a witness and,
where useful, a `_partial` theorem giving the strongest true part.

## Trusted base

* Coq 8.16.1's kernel, including the virtual machine (`vm_compute` is used in Examples and for
  closed boolean facts). No native compilation, no plugins, no kernel check switched off.
* `Print Assumptions` stands under every theorem in `theories/Properties`. Of the 228 theorems in
  MANIFEST.json, 164 are closed under the global context. The other 64 use Flocq's facts about
  rounding and therefore the standard library's real numbers; each of them lists exactly
  these four axioms:
  `ClassicalDedekindReals.sig_forall_dec`, `ClassicalDedekindReals.sig_not_dec`, `Classical_Prop.classic`, `FunctionalExtensionality.functional_extensionality_dep`.
* The statement of a theorem rests on the model (`theories/Model`) and on the definitions of
  `theories/Spec` it mentions. Nothing in `theories/Proofs` needs to be trusted or read.
* That the model is the code: it was written by reading the code; nothing checks this mechanically.

### What is modelled

Every function of the packages `bucket`, `bucket/fifo`, `lsh`, `wta_hash`, `densified_wta_hash`,
`densified_minhash`, `sparse_random_projection`, `dataset/xcrepo`, `node`, `layer`, `network`,
`configuration` and of `goslide.go`, except those below. Each definition cites its lines.

Parts of Go and its library that the model implements rather than assumes: slices with bounds checks
and sharing where it is observable, int64/uint64 wrap-around, float64 arithmetic and comparisons,
conversions between int and float64 (amd64), `math.Floor/Ceil/Sqrt`, `container/heap`, `rand.Shuffle`
on top of a stream of draws, `sort.Ints` (the sorted permutation), `sort.Sort` (insertion sort; the same result
whenever no key is NaN), map iteration (in an order taken from the random stream), what `json.Unmarshal` does
with a JSON value for the Configuration struct,
`strings.Split`, `strconv.Atoi`, `bufio.Scanner` with `ScanLines` over an arbitrary reader.

Abstract (theorems quantify over them): the random streams, `math.Exp`, `math.Pow`, `math.Log2`,
`strconv.ParseFloat`, `maphash`, the contents of files, the JSON grammar (text to JSON value).

### Evidence that the model is the code

`theories/Conformance/RepoTests.v` replays every test function of the repository's own unit tests
(`bucket`, `bucket/fifo`, `lsh`, `wta_hash`, `densified_wta_hash`, `densified_minhash`,
`sparse_random_projection`) on the model; all assertions hold. These are checks of the model, not proofs of
properties. The packages without tests in the repository (`layer`, `network`, `node`, `configuration`, the
program) have no such check.

### What is not modelled

* `NodeType.String`, `copyIntSlice` (unused), profiling, logging other than the logged values, the
  clock, `os.Exit`; the text of panics and errors.
* Memory exhaustion, and lengths too large for memory other than the int64 overflow of the size.
* Goroutines: the pinned commit starts none.
* Multiply-add fusion on other architectures; the bit pattern of NaNs.
* Loops that need not end are given fuel (`e_fuel`, the rejection loop of mode 2); theorems hold for
  every amount of fuel, running out of fuel being a panic of its own.

Theorems that use these axioms: C14_wta_tables_are_permutations, C18_dwta_bins_have_eight_slots, C19_dwta_dense_hash_is_winner_position, C20_dwta_hashes_are_digits, C21_dwta_densification, C21_dwta_densification_easy, C22_dwta_sparse_honours_indices_partial, C23_probes_reach_every_bin_refuted, C24_minhash_map_in_range, C25_minhash_every_width_refuted, C25_minhash_every_width_partial, C29_srp_sparse_equals_dense, C31_srp_samples_distinct_features, C32_srp_negation_flips, C52_exponents, C58_partial, C58_sampling, C58_sampling_ends, C62_accuracy, C62_program, C63_dwta_seeds_positive_odd, C68_program, C68_sampling, C69_moments, C71_untouched, C71_unseen_feature, C73_training, C73_inference, C74_runs, C77_gradient, C77_constant, C77_negative_refuted, C77_batch_refuted, C77_batch_gradient, C77_bounded, C77_batch_unbounded, C78_activation, C78_projection, C78_decimals, C79_rehash, C79_new, C80_finite, C80_step, C83_scale, C83_projection, C84_class, C84_exp, C85_descent, C85_adam, C85_sgd, C85_code_far, C85_code_refuted, C86_dwta_slots, C86_wta_winners, C86_wta_collide, C86_dwta_collide, C88_features, C88_balance, C88_unbiased, C89_network, C90_network, C93_evaluate, C93_program, C93_same.

## Results

| Property | Status | Theorems | Remarks |
|---|---|---|---|
| C01 FIFO bucket keeps the last 128 ids | proved | C01_fifo_keeps_last_128 |  |
| C02 Add returns the slot where the id can be read back | proved | C02_fifo_add_readback |  |
| C03 Retrieve is total on non-negative slots | proved | C03_fifo_retrieve_total | Retrieve is modelled as a pure function of the bucket because the Go method assigns nothing. |
| C04 A slice returned by GetAll is a live view of the bucket | proved | C04_fifo_getall_is_live_view |  |
| C05 Array bucket agrees with the FIFO bucket on ids it stored | proved | C05_bucket_agrees_with_fifo |  |
| C06 Array bucket GetAll is observationally pure | partial | C06_bucket_getall_pure_refuted, C06_bucket_getall_frame_partial | REFUTED as stated: GetAll writes a -1 sentinel into the first unfilled slot. The _partial theorem proves that no other slot changes. |
| C07 LSH tables are a map from (table, index) to a bounded FIFO | proved | C07_lsh_is_map_of_fifos |  |
| C08 LSH operations panic exactly on out-of-range indices | proved | C08_lsh_new_panics_iff, C08_lsh_calls_panic_iff | Panics of make for lengths too large for memory are not modelled. |
| C09 SRP hash tuples are encoded injectively in range | proved | C09_srp_index_is_binary, C09_srp_index_injective, C09_srp_lookup_panics_iff_range_too_small |  |
| C10 (D)WTA hash tuples are encoded in range | proved | C10_wta_index_base4, C10_wta_lookup_panics_iff_range_too_small |  |
| C11 Distinct DWTA hash tuples go to distinct buckets | partial | C11_dwta_index_injective_refuted, C11_dwta_index_injective_partial | REFUTED as stated: digits 0..7 are encoded in base 4 because the code takes floor(ln 8) = 2 as the digit width. The _partial theorem proves injectivity when digits are below 4. |
| C12 Minhash bucket indices are always in range | proved | C12_minhash_index_in_range |  |
| C13 Each table index depends only on that table's K hashes | proved | C13_index_depends_only_on_own_window, C13_hashes_to_index_panics_iff |  |
| C14 WTA tables are stacked permutations large enough for every bin | proved | C14_wta_tables_are_permutations |  |
| C15 WTA hash is the first maximum of its bin | proved | C15_wta_hash_is_first_max, C15_first_max_unique |  |
| C16 WTA hash depends only on the order of the values | proved | C16_wta_depends_only_on_order |  |
| C17 WTA hash of a sparse vector equals the hash of its dense form | partial | C17_wta_sparse_equals_dense_refuted, C17_wta_sparse_panics_refuted, C17_wta_sparse_equals_dense_partial, C17_wta_sparse_is_dense_of_values_partial | REFUTED as stated. The _partial theorems give the strongest true version; see the comments beside them. |
| C18 DWTA tables give every bin exactly eight slots | proved | C18_dwta_bins_have_eight_slots |  |
| C19 DWTA dense hash is the position of the bin's winner | proved | C19_dwta_dense_hash_is_winner_position |  |
| C20 DWTA hashes are always digits in [0,8) | proved | C20_dwta_hashes_are_digits |  |
| C21 Densification takes bounded probes and borrows from a non-empty bin | proved | C21_dwta_densification, C21_dwta_densification_easy |  |
| C22 DWTA sparse hash honours feature indices | partial | C22_dwta_sparse_honours_indices_refuted, C22_dwta_ignores_indices_refuted, C22_dwta_sparse_honours_indices_partial | REFUTED as stated. The _partial theorem gives the strongest true version. |
| C23 Densification probes reach every bin | partial | C23_probes_reach_every_bin_refuted, C23_probes_in_range_partial | REFUTED as stated: the seed is an odd multiplier but the probe sequence can be constant. The _partial theorem proves that every probe is in range. |
| C24 Minhash bin map is in range | proved | C24_minhash_map_in_range |  |
| C25 Minhash layer works for every previous-layer size | partial | C25_minhash_every_width_refuted, C25_minhash_rounding_refuted, C25_minhash_every_width_partial | REFUTED as stated: widths >= 64 give MinInt64 ids (hashing panics), and widths 53..63 can round an id out of range. The _partial theorem covers widths up to 52. |
| C26 Minhash hash is the maximum index of the bin | proved | C26_minhash_is_max_index |  |
| C27 Minhash 'easy' hashing keeps the topK largest values | partial | C27_minhash_easy_keeps_largest_refuted, C27_minhash_easy_keeps_smallest_partial | REFUTED as stated: the heap evicts the largest value, so the topK smallest are hashed. The _partial theorem proves exactly that, for every input. |
| C28 Minhash easy and dense variants agree | proved | C28_minhash_easy_variants_agree, C28_minhash_easy_panics |  |
| C29 SRP sparse and dense hashes agree | proved | C29_srp_sparse_equals_dense |  |
| C30 SRP sparse hash does not depend on the order of the pairs | partial | C30_srp_order_independent_refuted, C30_srp_order_independent_partial | REFUTED as stated: the merge loop needs increasing indices. The _partial theorem covers sorted lists. |
| C31 SRP samples distinct in-range features | proved | C31_srp_samples_distinct_features |  |
| C32 SRP hash is the complement on the negated vector | proved | C32_srp_negation_flips |  |
| C33 Scanner errors are sticky | proved | C33_scanner_total, C33_sticky |  |
| C34 Every example returned is within the declared bounds | proved | C34_example_in_bounds |  |
| C35 Scanning inverts writing | proved | C35_scan_file, C35_scan_write | For any file whose lines are in the format and for the output of a concrete writer; lines shorter than 64 KiB (the limit of bufio.Scanner), reader without 101 empty reads in a row, ParseFloat/formatting abstract. |
| C36 A truncated line is never returned as an example | proved | C36_no_truncated_line, C36_scanner_error | Err is the reader's error unless a line exceeds 64 KiB or the reader stalls, which bufio.Scanner reports as its own errors. |
| C37 Line numbers | proved | C37_line_number_start, C37_line_number_scan |  |
| C38 The not-enough-fields error is never reported | proved | C38_never_not_enough_fields |  |
| C39 The scanner delivers as many examples as the header promises | partial | C39_total_points_refuted, C39_all_lines_delivered_partial | REFUTED: the scanner does not compare the number of examples with TotalPoints. Partial: one example per line after the header. |
| C40 Copy-on-write isolation of nodes | partial | C40_slices_refuted, C40_scalar_refuted, C40_partial, C40_reads, C40_constructed | REFUTED as stated: clones share the float slices (C40_slices_refuted) and may share the base record (C40_scalar_refuted). The _partial theorem proves isolation for scalar and input-slot setters when no part carries the cowId. |
| C41 Same cowId mutates in place | proved | C41, C41_pointer, C41_update, C41_panics | For nodes whose parts do not overlap and, for BackPropagate, do not overlap with the previous layer (the situation layer.New creates). |
| C42 Activation value | proved | C42_value, C42_kept, C42_returns |  |
| C43 Back-propagation of one node | proved | C43_adam, C43_plain, C43_returns_iff | Closed form for distinct listed nodes; returns-iff without that restriction. |
| C44 Plain gradient step for the bias is learningRate*delta | partial | C44_refuted, C44_actual, C44_partial | REFUTED as stated: the first layer adds learningRate + delta. C44_actual gives the exact effect; _partial the other cases. |
| C45 Weights and mirror weights | partial | C45_refuted, C45_immediate, C45_partial | REFUTED as stated: mirror weights and weights are one slice. _partial: with Adam, and for the bias. |
| C46 Sampling mode activates labels, retrieved nodes and enough random nodes | proved | C46_sampling | For any cowId, any retrieval result and any fallback order that is a permutation (C53). |
| C47 Duplicate labels do not corrupt the active set | partial | C47_duplicate_labels_refuted, C47_active_list_partial, C47_small_layers_partial | REFUTED as stated: every duplicate label adds a trailing entry for node 0 and takes away one random node. C47_active_list_partial gives the exact list. |
| C48 Threshold mode always activates the true labels | partial | C48_exact, C48_labels_partial, C48_labels_refuted | The exact active set is proved (C48_exact); the claim about labels is REFUTED for L <= 2 and proved for L >= 3. |
| C49 Random mode picks distinct nodes | proved | C49_random | If the call returns: the rejection loop of the code need not end. |
| C50 Exact top-k mode returns | partial | C50_topk_refuted, C50_ranking_partial | REFUTED as stated: on every softmax layer the call panics whenever floor(numNodes*sparsity) < numNodes. The _partial theorem describes the calls that return. |
| C51 Full density activates every node once | proved | C51_dense, C51_tables_not_read |  |
| C52 Softmax normalisation | proved | C52_softmax, C52_exponents | C52_exponents uses float facts (Flocq, stdlib real axioms): no exponent is positive, for representable weights, biases and inputs. The exponential itself is an arbitrary function. |
| C53 Random node order stays a permutation | proved | C53_random_order |  |
| C54 PredictClass counts argmax hits | proved | C54_count | The forward pass is described by an independent relation (inference): features, chosen nodes, weighted sums, ReLU/softmax, sparsity entries num..2*num-1. The class is the first greatest value, or 0 if no node is active. |
| C55 PredictClass does not change the learned parameters | proved | C55_unchanged | Weights, moments, accumulators, biases, tables, hash functions and the fallback order are all unchanged; only the slots and normalisation constants of the predicted inputs may differ. |
| C56 After a training step no gradient is left over | proved | C56_training | The call in closed form: forward pass, errors, gradients (plain and Adam), update; afterwards no gradient is left. LoadWeight=false; one cowId. |
| C57 After a rehash every node is findable | proved | C57_rehash, C57_new_predict, C57_predict | After ProcessInput with rehash, after New, and kept by PredictClass. RangePow between 0 and 62 (with 63 New panics, above there are no buckets). |
| C58 Training never panics on well-formed configurations | partial | C58_partial, C58_sampling, C58_sampling_ends, C58_dense, C58_mode3_refuted, C58_mode2_refuted, C58_wta_refuted, C58_minhash_refuted | C58_partial: for every configuration meeting well_formed (Spec/SafeSpec.v), New succeeds from every memory and random stream and every list of fitting calls succeeds. C58_dense: dense networks with any hash function or mode. Missing: sparse layers with WTA or densified minhash hashing (C58_wta_refuted, C58_minhash_refuted show that they fail), a sparse softmax layer in mode 3 (C58_mode3_refuted), and LoadWeight. Mode 2: C58_sampling shows that the only thing that can go wrong with a sparse softmax layer is that the sampling loop does not end; C58_sampling_ends that it ends whenever the random numbers leave no node out and no more active nodes are asked for than there are nodes; C58_mode2_refuted that with more asked for than there are, training never returns. |
| C59 Rehash and rebuild schedule | proved | C59_schedule, C59_panics | For counters that do not overflow int64. The first batch panics with a division by zero (C59_panics). |
| C60 Training batches are consecutive | proved | C60_epoch, C60_batches | Training data: any file that delivers the examples (every well-formed file does, C35). |
| C61 Only the last layer is softmax | proved | C61_types, C61_no_layers | C61_no_layers is about the whole program. |
| C62 Reported accuracy is a proportion | proved | C62_accuracy, C62_denominator, C62_program, C62_no_batches | C62_program covers every line the program logs; C62_no_batches: with fewer test records than a batch the logged value is NaN. numBatchesTest*BatchSize <= 2^53. Counts are those PredictClass returns; when the file is short the denominator stays numBatchesTest*BatchSize. |
| C63 Random multipliers are positive odd | proved | C63_dwta_seeds_positive_odd, C63_lsh_multipliers_positive_odd, C63_minhash_seeds_positive_odd | Three theorems, one per package that draws seeds: lsh, densified_wta_hash, densified_minhash. |
| C64 A network stays one consistent object under every history of calls | proved | C64_live, C64_unique | Weights are not loaded (LoadWeight=false); calls use one cowId. |
| C65 The dimensions of a network never change, and nothing is left over between calls | proved | C65_shape | LoadWeight=false; one cowId. |
| C66 New draws every weight and bias once and lists every node | proved | C66_new | LoadWeight=false. |
| C67 The program trains and evaluates one network, in a fixed order | proved | C67_program | Equality of final memories or panics; the log is a function of the same calls (C62, C60). |
| C68 The program finishes without failing on a well-formed configuration and fitting data | proved | C68_program, C68_sampling | Hypotheses are those of C58_partial plus the schedule bounds; C58 refutes the excluded hash functions and modes. C68_sampling adds the sampling mode 2 when the random stream reaches every node and the labels leave room. |
| C69 Adam's second moments are never negative and its divisor is never zero | proved | C69_moments | Uses Flocq (stdlib real axioms). A second moment may be NaN or infinite; it is never negative. |
| C70 A training call is one optimiser step with the gradient of its batch | proved | C70_adam, C70_sgd | Two theorems, with and without Adam. The bias of the first layer moves by rate plus error without Adam, as in the code (Spec/BatchSpec.v, sgd_bias). |
| C71 Training moves only the weights that were active | proved | C71_untouched, C71_unseen_feature | With Adam the step sizes must be finite numbers (rate_ok): an infinite rate times a zero moment is NaN. Uses Flocq for Adam. |
| C72 A dense network predicts from its parameters and the features alone | proved | C72_dense, C72_batches | The predicted class is given as a function of the parameters (Spec/DenseSpec.v, dense_class); C72_batches compares two networks with the same parameters in any two memories. |
| C73 Outputs, shares and errors stay in their ranges | proved | C73_training, C73_inference | Assumptions on math.Exp and math.Pow are the record math_ok (Spec/RangeSpec.v). The bound on the number of labels is needed: the target 1/labels is not divided by the batch size (C73_ex shows a label pushed down). |
| C74 A configuration file means what it says | proved | C74_accepted, C74_values, C74_file_accepted, C74_file, C74_round_trip, C74_program, C74_runs | The file system and the JSON grammar are outside the model (record loader in Model/Load.v); what json.Unmarshal does with a JSON value for the Configuration struct is modelled. A list setting given twice in one object is left out of C74_values. Key comparison folds ASCII letters only. C74_runs uses Flocq through C68. |
| C75 The copy-on-write id isolates nothing and is not irrelevant | partial | C75_alias, C75_alias_calls, C75_result, C75_isolation_refuted, C75_lost_update_refuted | Isolation and irrelevance of the id are both refuted on networks built by New; the interchangeability of networks that differ in the id, and what a call returns, are proved. |
| C76 The order of an example's labels does not matter | proved | C76_train, C76_predict | Mode 2 with sampled layers is excluded: there the labels start the list of active nodes in their order. |
| C77 Training follows the gradient of the cross-entropy | partial | C77_code_sgd, C77_code_adam, C77_gradient, C77_constant, C77_negative_refuted, C77_batch_refuted, C77_batch_gradient, C77_bounded, C77_batch_unbounded | C77_code_sgd/adam tie the code (binary64) to generic forward and backward passes, C77_gradient proves that the same passes over the reals (batch size 1, no small constant) are the gradient. Refuted: with a larger batch only the share, not the target, is divided by the batch size (C77_batch_gradient says what the errors are the gradient of, C77_batch_unbounded that this has no lower bound); with all weighted sums negative the small constant swamps the shares. Rounding is not bounded. The first-layer bias step of the code without Adam (lr + delta instead of lr * delta) is C70, and is not a gradient step. |
| C78 Weighted sums and random projections are accurate up to rounding | proved | C78_activation, C78_projection, C78_decimals | binary64 versus exact real sums (Flocq); C78_activation bounds GetActivation, C78_projection says when a hash bit is the sign of the exact sum. |
| C79 The tables answer an input with the nodes in its buckets, and a node's own weights with the node | proved | C79_rehash, C79_new | C79_rehash after a rehashing call, C79_new for new networks; Spec/RetrieveSpec.v says what a lookup returns. |
| C80 With Adam no number becomes infinite or NaN, and a call moves a parameter by at most eight learning rates | proved | C80_finite, C80_step | binary64 (Flocq) over whole histories; C80_finite: no overflow, C80_step: size of one step. Of the exponential it is only assumed that it maps finite arguments that are not positive into [0, 1]; the limits are stated in training_within (Spec/BoundSpec.v), C80_ex_size shows how far they reach. |
| C81 The random orders are fair | proved | C81_shuffle, C81_new, C81_update | that the choices and the orders are as many (n!) is left to the reader: choices in Spec/ShuffleSpec.v lists n*(n-1)*...*2 sequences, and the theorem gives for each order the one sequence that makes it. The library draws an integer below n from its source; the model takes the next number of the stream modulo n. |
| C82 Networks in one program do not disturb each other | proved | C82_others, C82_history, C82_same | C82_others: one step; C82_history: whole programs, with history of Spec/BatchSpec.v (the relation of C70) over the calls on the network itself; C82_same: results and panics. The random source is shared, as in the code, so the draws a network gets do depend on the others. Calls under another id are the subject of C40 and C75. |
| C83 The hashes ignore what a similarity hash should ignore | proved | C83_dwta_dense, C83_dwta_sparse, C83_minhash, C83_scale, C83_projection | same_order and scaled_by are in Spec/ScaleSpec.v. C83_dwta_dense, C83_dwta_sparse, C83_minhash: order only (the WTA hash is C16). C83_scale: exact multiples. C83_projection: powers of two in binary64; other factors can change the rounding of the sums, so nothing is claimed for them. |
| C84 A dense network predicts the class with the best exact score | proved | C84_class, C84_exp | exp is a parameter: C84_class assumes that it separates arguments d apart on [-600, 0], C84_exp derives this from accuracy to 2^-50. Nothing is claimed for examples without a clear winner (rounding may then decide) or for networks that sample nodes. |
| C85 A small enough training step lowers the loss | partial | C85_code, C85_code_adam, C85_descent, C85_adam, C85_sgd, C85_code_far, C85_code_refuted | C85_code and C85_code_adam tie the code to the steps; the same steps over the reals: C85_adam and C85_sgd with C85_descent show that the first Adam step and the corrected plain step lower the loss. The plain step of the code does not: BackPropagateFirstLayer adds lr + delta to the bias of a first-layer node instead of lr * delta (C85_code_refuted; C85_code_far: the loss can rise by 100 for every rate below 1/100). Batch size 1, without the small constant and rounding (see C77). |
| C86 Winner-take-all codes are unbiased and collide at the right rate | proved | C86_dwta_slots, C86_wta_winners, C86_wta_collide, C86_dwta_collide, C86_every_bin | Counting over all n! outcomes of the shuffle. Bins that straddle two orders (possible when the number of features is not a multiple of eight) are outside the statement, as are vectors with ties. |
| C87 The debugging calls of a node report what training does | proved | C87_hidden, C87_first, C87_returns, C87_perturb | Exact, for all float64 values. That the accumulated gradients are derivatives of the loss is C77. |
| C88 Random projections pick features fairly and give unbiased bits | proved | C88_features, C88_balance, C88_unbiased | Exact counts over all choices, with no condition on the values: zero and NaN sums are counted. |
| C89 The nodes LayerMode4 adds at random are a fair sample of the nodes that are not candidates | proved | C89_network, C89_sets, C89_nodes | Exact counts over all the orders; that New and UpdateRandomNodes make every order equally often is C81. Duplicate labels are C47. C89_network: in a network made by New from a well-formed configuration and used in any way, every query with fitting arguments returns, so the counts hold without assuming anything about the layer. |
| C90 The nodes LayerMode2 adds at random are a fair sample of the nodes that are not labels | proved | C90_sequences, C90_nodes, C90_network | Exact counts over all the draws. That the sampling ends, and when it does not, is C58; that the nodes are distinct and in range is C49. C90_network: the same for a network made by New: the queries return as soon as the draws contain enough different other nodes. |
| C91 Only the active connections influence a prediction | proved | C91_idle, C91_perturb | LayerMode3 is excluded because it reads the weights of every node in order to choose the active ones. |
| C92 The number of active nodes is bounded by the tables, not by the layer | proved | C92_query, C92_inference | The outputs of the forward passes are those of C54 and C70. In modes 2 and 3 a layer that is not softmax keeps whatever list it was given (C49, C50). |
| C93 The reported accuracy is that of the network's weights and biases on the test file | proved | C93_evaluate, C93_program, C93_same | For prediction sparsities 1 (dense prediction); the sampled case has no function of the parameters to compare with, because the tables choose the nodes. C93_same states equality of the numbers reported (real values of the floats). |
| C94 Predicting the same examples again gives the same answer | partial | C94_winner, C94_repeat, C94_dense, C94_random_refuted | Refuted in general by C94_random_refuted (LayerMode2). C94_dense and C94_winner/C94_repeat are the true cases; in LayerMode4 the answer depends on the random fill, whose distribution is C89. |
| C95 A training call without examples changes nothing | partial | C95_sgd, C95_sgd_predictions, C95_adam, C95_adam_refuted | Refuted with Adam (C95_adam_refuted); C95_adam says exactly what the call does there. C95_sgd and C95_sgd_predictions are the full claim without Adam. C95_reached shows that the program makes such calls. |
| C96 With every node active, training is determined by the initial weights and the examples | proved | C96_parameters, C96_predictions | Two networks, possibly with different environments, K, L, RangePow and random sources, are compared by induction over both histories (C96_parameters); the counts of dense predictions follow (C96_predictions). The exponential, the power function and the optimiser must be the same; both histories must return. |
