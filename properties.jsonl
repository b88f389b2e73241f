{"id": "C01", "title": "FIFO bucket keeps the last 128 ids", "statement": "After any sequence of Add and Reset on a new fifo bucket, GetAll returns a slice of length min(n,128), n being the number of Adds since the last Reset (or since New), whose element at position j is the most recently added id among those whose ordinal (0-based, counted since the last Reset) is congruent to j modulo 128. No other id is ever returned and no operation panics.", "quantifier": "every finite history of Add/Reset calls with arbitrary int ids, including histories long enough to wrap the internal counter", "why_tests_cant": "A test replays a few histories up to 130 adds; the claim is about every history length and every interleaving of resets.", "anchors": ["bucket/fifo/fifo.go: New, Reset, Add, GetAll"]}
{"id": "C02", "title": "Add returns the slot where the id can be read back", "statement": "If Add(id) on a fifo bucket returns j, then 0 <= j < 128 and Retrieve(j) returns id immediately and after any fewer than 128 further Adds with no Reset; the 128th further Add overwrites exactly that slot.", "quantifier": "every prior history, every id, every continuation of Adds", "why_tests_cant": "Quantifies over every state of the ring and every continuation.", "anchors": ["bucket/fifo/fifo.go: Add, Retrieve"]}
{"id": "C03", "title": "Retrieve is total on non-negative slots", "statement": "For every reachable fifo bucket, Retrieve(j) is -1 when j >= 128, 0 when the slot has not been filled since the last Reset, the stored id otherwise, and panics exactly when j < 0. It never changes the bucket.", "quantifier": "every history and every int argument", "why_tests_cant": "Unbounded argument and history.", "anchors": ["bucket/fifo/fifo.go: Retrieve"]}
{"id": "C04", "title": "A slice returned by GetAll is a live view of the bucket", "statement": "The slice returned by fifo GetAll shares storage with the bucket: after later operations its length is unchanged and each of its elements reads the id most recently written to that slot of the bucket's storage, even across Reset; a later Add that does not land in one of its positions leaves it unchanged.", "quantifier": "every history before GetAll and every history after it", "why_tests_cant": "Aliasing is only visible for particular interleavings of reads and writes; tests look at one.", "anchors": ["bucket/fifo/fifo.go: GetAll, Add, Reset"]}
{"id": "C05", "title": "Array bucket agrees with the FIFO bucket on ids it stored", "statement": "On the array-backed bucket, after any history of fewer than 2^63 Add/Reset/GetAll calls, GetSize is the number of Adds since the last Reset, Add returns (number of Adds since the last Reset) mod 128, and Retrieve(j) returns the same value as the fifo bucket fed the same Adds and Resets for every slot j that has been filled since the last Reset; GetAll returns nil iff nothing was added since the last Reset and otherwise 128 slots, the first unfilled one reading -1.", "quantifier": "every history of Add, Reset, GetAll, Retrieve", "why_tests_cant": "Relates two stateful implementations over all histories.", "anchors": ["bucket/bucket.go: New, Reset, GetSize, Add, Retrieve, GetAll"]}
{"id": "C06", "title": "Array bucket GetAll is observationally pure", "statement": "Calling GetAll on the array-backed bucket does not change the result of any later Retrieve.", "quantifier": "every history and every slot", "why_tests_cant": "One would have to compare all pairs of histories differing by a GetAll.", "anchors": ["bucket/bucket.go: GetAll, Retrieve"]}
{"id": "C07", "title": "LSH tables are a map from (table, index) to a bounded FIFO", "statement": "After any sequence of Add, AddSingle and Clear on a new LSH, RetrieveRaw and Retrieve on (table, index) return exactly what a fresh fifo bucket would return after receiving, in order, the ids added to that (table, index) since the last Clear. Adding to one (table,index) never affects another.", "quantifier": "every history of operations with in-range indices, every table and index", "why_tests_cant": "State space is L * 2^rangePow buckets with unbounded histories.", "anchors": ["lsh/lsh.go: New, Clear, Add, AddSingle, RetrieveRaw, Retrieve"]}
{"id": "C08", "title": "LSH operations panic exactly on out-of-range indices", "statement": "Add(indices,id) and RetrieveRaw(indices) panic iff indices has fewer than L elements or one of the first L elements is outside [0,2^rangePow); AddSingle and Retrieve panic iff the table or the index is out of range (or the slot is negative); New panics iff a size is negative or too large.", "quantifier": "every LSH state and every argument", "why_tests_cant": "Panic freedom is a universal claim.", "anchors": ["lsh/lsh.go: Add, AddSingle, RetrieveRaw, Retrieve"]}
{"id": "C09", "title": "SRP hash tuples are encoded injectively in range", "statement": "With the sparse-random-projection hash function, HashesToIndex maps each table's K bits (first bit most significant) to its binary value in [0,2^K); equal indices imply equal bit tuples. Hence lookups never panic when rangePow >= K, and for K > rangePow there are bit tuples whose index is outside the table.", "quantifier": "every K <= 62, L, and every vector of K*L bits", "why_tests_cant": "2^(K*L) inputs.", "anchors": ["lsh/lsh.go: HashesToIndex"]}
{"id": "C10", "title": "(D)WTA hash tuples are encoded in range", "statement": "With a (densified) WTA hash function and K digits each in [0,8), HashesToIndex gives the sum of digit_j * 4^(K-1-j), which lies in [0, 7*(4^K-1)/3]; so lookups never panic when 2^rangePow > 7*(4^K-1)/3 and there are digit tuples that do fall outside the table when 2^rangePow <= 7*(4^K-1)/3.", "quantifier": "every K <= 29, L, and every vector of K*L digits", "why_tests_cant": "8^(K*L) inputs and all configurations.", "anchors": ["lsh/lsh.go: HashesToIndex, logBinSize"]}
{"id": "C11", "title": "Distinct DWTA hash tuples go to distinct buckets", "statement": "For densified WTA digits in [0,8), two different K-digit tuples are mapped by HashesToIndex to different indices.", "quantifier": "every K and every pair of digit tuples", "why_tests_cant": "Quantifies over all pairs of tuples.", "anchors": ["lsh/lsh.go: HashesToIndex, logBinSize"]}
{"id": "C12", "title": "Minhash bucket indices are always in range", "statement": "With the densified-minhash hash function, every index computed by HashesToIndex is in [0,2^rangePow), whatever the hashes (including negative and MinInt64 ones) and the table's random multipliers, with 64-bit wrap-around arithmetic.", "quantifier": "every 64-bit hash vector, every random multiplier, every rangePow in [0,62]", "why_tests_cant": "2^64 values per hash.", "anchors": ["lsh/lsh.go: HashesToIndex"]}
{"id": "C13", "title": "Each table index depends only on that table's K hashes", "statement": "For every hash function, HashesToIndex returns L indices, and index i depends only on hashes K*i .. K*i+K-1 (and the table's own random multipliers); it panics iff fewer than K*L hashes are given.", "quantifier": "every pair of hash vectors that agree on one table's window", "why_tests_cant": "Relational claim over all pairs of inputs.", "anchors": ["lsh/lsh.go: HashesToIndex"]}
{"id": "C14", "title": "WTA tables are stacked permutations large enough for every bin", "statement": "For every random source, wta_hash.New(numHashes, n) with n >= 1 builds an index table that is a concatenation of permutations of 0..n-1 of total length at least 8*numHashes, so that GetHashDense on a vector of length >= n never panics.", "quantifier": "every random stream, every numHashes >= 0 and n >= 1 with 8*numHashes < 2^53 (float64 ceiling included)", "why_tests_cant": "Random construction: tests see one seed; ceiling is computed in float64.", "anchors": ["wta_hash/wta_hash.go: New, GetHashDense"]}
{"id": "C15", "title": "WTA hash is the first maximum of its bin", "statement": "For each hash i, GetHashDense returns the data index found among the 8 candidates of bin i that has the greatest value, the earliest candidate winning ties; NaN candidates and candidates <= -2^63 never win, and if no candidate can win the result is MinInt64.", "quantifier": "every table, every float64 vector including NaN, infinities and signed zeros", "why_tests_cant": "All float vectors.", "anchors": ["wta_hash/wta_hash.go: GetHashDense, GetHash"]}
{"id": "C16", "title": "WTA hash depends only on the order of the values", "statement": "If two vectors order every pair of candidates the same way and both make the same candidates eligible (greater than -2^63), they get the same WTA hashes.", "quantifier": "every pair of order-equivalent vectors", "why_tests_cant": "Hyperproperty over pairs of vectors.", "anchors": ["wta_hash/wta_hash.go: GetHashDense"]}
{"id": "C17", "title": "WTA hash of a sparse vector equals the hash of its dense form", "statement": "wta GetHash on index/value pairs returns what GetHashDense returns on the dense vector the pairs represent (absent features being 0).", "quantifier": "every sparse vector", "why_tests_cant": "Relates two functions on all sparse vectors.", "anchors": ["wta_hash/wta_hash.go: GetHash, GetHashDense"]}
{"id": "C18", "title": "DWTA tables give every bin exactly eight slots", "statement": "For every random source, densified_wta_hash.New(numHashes,n) builds tables in which, for every bin b < numHashes and every position q < 8, exactly one (permutation, feature) entry maps to bin b and position q.", "quantifier": "every random stream and all sizes with 8*numHashes < 2^53", "why_tests_cant": "Random construction; float64 ceiling.", "anchors": ["densified_wta_hash/densified_wta_hash.go: New"]}
{"id": "C19", "title": "DWTA dense hash is the position of the bin's winner", "statement": "For a dense vector of length n with at least one value > -2^63 in each bin, GetHashEasy returns for every bin the position in [0,8) of the entry with the greatest value, the first one in (permutation, feature) order on ties.", "quantifier": "every table built by New, every float64 vector", "why_tests_cant": "All vectors and all random tables.", "anchors": ["densified_wta_hash/densified_wta_hash.go: GetHashEasy"]}
{"id": "C20", "title": "DWTA hashes are always digits in [0,8)", "statement": "For every table built by New, every data vector of length at most n, GetHash and GetHashEasy return numHashes values, each in [0,8), without panicking, empty bins included.", "quantifier": "every random table, seed, vector (also empty or partially NaN)", "why_tests_cant": "All vectors and seeds; densification loop included.", "anchors": ["densified_wta_hash/densified_wta_hash.go: GetHash, GetHashEasy, GetRandDoubleHash"]}
{"id": "C21", "title": "Densification takes bounded probes and borrows from a non-empty bin", "statement": "For an empty bin, GetHash makes at most 101 probes; the result is the hash of the first probed non-empty bin if one is found within 100 probes and 0 otherwise.", "quantifier": "every seed, bin, set of empty bins", "why_tests_cant": "All seeds and emptiness patterns.", "anchors": ["densified_wta_hash/densified_wta_hash.go: GetHash, GetRandDoubleHash"]}
{"id": "C22", "title": "DWTA sparse hash honours feature indices", "statement": "GetHash on the index/value pairs of a sparse vector gives the hash GetHashEasy gives on the corresponding dense vector when all bins are hit by a non-zero feature; in particular feature indices matter.", "quantifier": "every sparse vector", "why_tests_cant": "Relates two functions on all inputs.", "anchors": ["densified_wta_hash/densified_wta_hash.go: GetHash"]}
{"id": "C23", "title": "Densification probes reach every bin", "statement": "For numHashes >= 2 the probe index min(GetRandDoubleHash(b,c), numHashes-1) takes values other than numHashes-1 for some probe of each bin, whatever the seed.", "quantifier": "every odd seed, bin, probe", "why_tests_cant": "64-bit modular arithmetic over all seeds.", "anchors": ["densified_wta_hash/densified_wta_hash.go: GetRandDoubleHash", "densified_minhash/densified_minhash.go: GetRandDoubleHash"]}
{"id": "C24", "title": "Minhash bin map is in range", "statement": "densified_minhash GetMap(n) returns n bin ids, each in [0,numHashes), for every seed, when the hasher was built with 1 <= numHashes and numOfBitsToHash <= 52.", "quantifier": "every hash seed / hash value, n, numHashes, range", "why_tests_cant": "Depends on a seeded hash and float64 division.", "anchors": ["densified_minhash/densified_minhash.go: GetMap"]}
{"id": "C25", "title": "Minhash layer works for every previous-layer size", "statement": "A layer with the minhash hash function can be built for every previous-layer width (which New passes as numOfBitsToHash): the bin ids are in range.", "quantifier": "every layer width", "why_tests_cant": "Tests use width 10 only.", "anchors": ["layer/layer.go: New", "densified_minhash/densified_minhash.go: New, GetMap"]}
{"id": "C26", "title": "Minhash hash is the maximum index of the bin", "statement": "densified_minhash GetHash returns, for each bin hit by some listed index, the largest listed index mapped to that bin; for an empty bin, a value of some non-empty bin or MinInt64 after a bounded number of probes.", "quantifier": "every index list, bin map and seed", "why_tests_cant": "All inputs and seeds.", "anchors": ["densified_minhash/densified_minhash.go: GetHash"]}
{"id": "C27", "title": "Minhash 'easy' hashing keeps the topK largest values", "statement": "GetHashEasy/GetHashEasyDense hash exactly the topK entries with the largest values of the data.", "quantifier": "every data vector with length >= topK", "why_tests_cant": "Heap algorithm over all inputs.", "anchors": ["densified_minhash/densified_minhash.go: GetHashEasy, GetHashEasyDense", "densified_minhash/index_value_pairs.go: Less, Push, Pop"]}
{"id": "C28", "title": "Minhash easy and dense variants agree", "statement": "GetHashEasy on pairs and GetHashEasyDense on their values return the same hashes and panic in the same cases (topK greater than the data length or negative; bin ids out of range).", "quantifier": "every data vector, bin map, topK", "why_tests_cant": "All inputs.", "anchors": ["densified_minhash/densified_minhash.go: GetHashEasy, GetHashEasyDense"]}
{"id": "C29", "title": "SRP sparse and dense hashes agree", "statement": "For a vector given as index/value pairs sorted by strictly increasing index, GetHashSparse equals GetHash of the dense vector (absent features +0), bit for bit, for all float64 values including NaN, infinities and signed zeros.", "quantifier": "every projection built by New, every sorted sparse vector", "why_tests_cant": "Float addition with signed zeros over all inputs.", "anchors": ["sparse_random_projection/sparse_random_projection.go: GetHash, GetHashSparse"]}
{"id": "C30", "title": "SRP sparse hash does not depend on the order of the pairs", "statement": "Permuting the index/value pairs passed to GetHashSparse does not change the result.", "quantifier": "every permutation of every pair list", "why_tests_cant": "All permutations.", "anchors": ["sparse_random_projection/sparse_random_projection.go: GetHashSparse"]}
{"id": "C31", "title": "SRP samples distinct in-range features", "statement": "For every random source, New(dim, numHashes, ratio) picks for every hash ceil(dim/ratio) distinct features in [0,dim) in increasing order; so GetHash never panics on vectors of length >= dim.", "quantifier": "every random stream, 0 <= dim < 2^53, ratio >= 1", "why_tests_cant": "Random construction; float64 ceiling; sort.", "anchors": ["sparse_random_projection/sparse_random_projection.go: New"]}
{"id": "C32", "title": "SRP hash is the complement on the negated vector", "statement": "Negating every coordinate flips every hash bit whose projection sum is neither zero nor NaN and leaves the others unchanged.", "quantifier": "every projection, every float64 vector", "why_tests_cant": "All float vectors; needs symmetry of rounding.", "anchors": ["sparse_random_projection/sparse_random_projection.go: GetHash"]}
{"id": "C33", "title": "Scanner errors are sticky", "statement": "Once Scan returned false, every later Scan returns false, LineNumber and Err keep their values.", "quantifier": "every input, every reader chunking / IO error, every number of further calls", "why_tests_cant": "All inputs and call sequences.", "anchors": ["dataset/xcrepo/xcrepo.go: Scan, Err"]}
{"id": "C34", "title": "Every example returned is within the declared bounds", "statement": "Whenever Scan returns true, all labels of Example() are in [0,NumLabels), all feature indices in [0,NumFeatures), there is at least one feature, and NumLabels, NumFeatures, TotalPoints are positive.", "quantifier": "every input byte sequence", "why_tests_cant": "All byte strings.", "anchors": ["dataset/xcrepo/xcrepo.go: Scan, parseLabels, parseFeatures, scanHeader"]}
{"id": "C35", "title": "Scanning inverts writing", "statement": "Scanning the text produced by writing any header and any list of valid examples in the repository's format yields exactly those examples in order, then false with a nil error.", "quantifier": "every header and list of examples with indices in bounds (float text parsed by an abstract ParseFloat)", "why_tests_cant": "All datasets.", "anchors": ["dataset/xcrepo/xcrepo.go: NewScanner, Scan"]}
{"id": "C36", "title": "A truncated line is never returned as an example", "statement": "If the reader fails with an I/O error, no example is built from bytes of a line that was not read completely: every example returned comes from a complete line of the delivered bytes, and Err returns the I/O error.", "quantifier": "every byte sequence and every failure point", "why_tests_cant": "Every crash point of the reader.", "anchors": ["dataset/xcrepo/xcrepo.go: Scan"]}
{"id": "C37", "title": "Line numbers", "statement": "LineNumber is 1 after NewScanner (if the reader did not fail), and grows by exactly one for each line consumed; when Scan fails to parse a line, LineNumber is the 1-based number of that line in the input.", "quantifier": "every input and every number of calls", "why_tests_cant": "All inputs.", "anchors": ["dataset/xcrepo/xcrepo.go: LineNumber, Scan, scanHeader"]}
{"id": "C38", "title": "The not-enough-fields error is never reported", "statement": "Err never returns ErrNotEnoughFields: every error of Scan is one of the other documented ones or the reader's.", "quantifier": "every input and call sequence", "why_tests_cant": "Universal negative.", "anchors": ["dataset/xcrepo/xcrepo.go: Scan, ErrNotEnoughFields"]}
{"id": "C39", "title": "The scanner delivers as many examples as the header promises", "statement": "When the whole file has been read with a nil error, the number of examples equals TotalPoints.", "quantifier": "every input", "why_tests_cant": "All inputs.", "anchors": ["dataset/xcrepo/xcrepo.go: Scan, TotalPoints"]}
{"id": "C40", "title": "Copy-on-write isolation of nodes", "statement": "Calling a setter (SetT, SetAdamAvgMom, SetAdamAvgVel, SetBias, SetTBias, SetAdamAvgMomBias, SetAdamAvgVelBias, CopyWeightsAndBiasFromMirror, SetlastActivation, PurturbWeight, BackPropagate...) with a cowId different from the node's leaves everything readable through the original node unchanged.", "quantifier": "every node state, setter, argument", "why_tests_cant": "Aliasing between clones is invisible to tests of the returned node.", "anchors": ["node/node.go: cloneIfNeeded, clone, copyFloat64Slice, Set*"]}
{"id": "C41", "title": "Same cowId mutates in place", "statement": "Calling a node method with the node's own cowId (owned by all its parts) returns the same node pointer, so callers that drop the returned node still observe the update.", "quantifier": "every node state and method", "why_tests_cant": "All states.", "anchors": ["node/node.go", "network/network.go: ProcessInput (FIXME: reassign)"]}
{"id": "C42", "title": "Activation value", "statement": "GetActivation returns bias plus the left-to-right float64 sum of weight*value over the input pairs, clamped at 0 for ReLU nodes; a later GetLastActivation for that input returns the same value until the input is back-propagated or overwritten; it never returns a negative number for ReLU nodes.", "quantifier": "every node, input pairs and input slot", "why_tests_cant": "All float inputs.", "anchors": ["node/node.go: GetActivation, GetLastActivation"]}
{"id": "C43", "title": "Back-propagation of one node", "statement": "BackPropagate on an active input adds delta*weight_j to the delta of every listed previous node whose activation is positive (using the weights before any update), adds delta*activation_j to the gradient accumulator of weight j and delta to the bias accumulator (Adam), and then clears the input's activation, delta and active flag; it panics iff the input is inactive or an index is out of range or a listed previous node is inactive.", "quantifier": "every node, previous layer, active list", "why_tests_cant": "All states; distinctness of aliases matters.", "anchors": ["node/node.go: BackPropagate, IncrementDelta"]}
{"id": "C44", "title": "Plain gradient step for the bias is learningRate*delta", "statement": "Without Adam, BackPropagateFirstLayer changes the pending bias by learningRate*delta, as BackPropagate does.", "quantifier": "every node, learning rate and delta", "why_tests_cant": "All floats.", "anchors": ["node/node.go: BackPropagateFirstLayer"]}
{"id": "C45", "title": "Weights and mirror weights", "statement": "Without Adam, a weight update made by BackPropagate is not visible to activations until CopyWeightsAndBiasFromMirror is called.", "quantifier": "every node and update", "why_tests_cant": "Aliasing of two slices.", "anchors": ["node/node.go: NewNode, Update, BackPropagate, CopyWeightsAndBiasFromMirror"]}
{"id": "C46", "title": "Sampling mode activates labels, retrieved nodes and enough random nodes", "statement": "In LayerMode4 with distinct in-range labels, the active set is in strictly increasing index order, contains every label (softmax layer) and every node id retrieved from the hash tables, contains nothing outside [0,numNodes), and has size max(c, min(1000,numNodes)) where c is the number of distinct labels and retrieved nodes.", "quantifier": "every retrieval result, label list, random start and random node order", "why_tests_cant": "All random streams and retrieval results.", "anchors": ["layer/layer.go: QueryActiveNodeAndComputeActivations (LayerMode4)"]}
{"id": "C47", "title": "Duplicate labels do not corrupt the active set", "statement": "In LayerMode4, an example whose label list contains duplicates yields the same active nodes as the example with the duplicates removed.", "quantifier": "every label list", "why_tests_cant": "All label lists.", "anchors": ["layer/layer.go: QueryActiveNodeAndComputeActivations (LayerMode4)"]}
{"id": "C48", "title": "Threshold mode always activates the true labels", "statement": "In LayerMode1 on a softmax layer, the active nodes are exactly the nodes whose count exceeds 2, where a label counts L and each retrieved occurrence counts 1, each once; in particular every true label is active.", "quantifier": "every retrieval result, label list and map iteration order", "why_tests_cant": "Map iteration order is random; all retrieval results.", "anchors": ["layer/layer.go: QueryActiveNodeAndComputeActivations (LayerMode1)"]}
{"id": "C49", "title": "Random mode picks distinct nodes", "statement": "In LayerMode2 on a softmax layer with distinct labels, if the call returns the active list has floor(numNodes*sparsity) distinct in-range nodes beginning with the labels.", "quantifier": "every random stream", "why_tests_cant": "Rejection sampling over all streams.", "anchors": ["layer/layer.go: QueryActiveNodeAndComputeActivations (LayerMode2)"]}
{"id": "C50", "title": "Exact top-k mode returns", "statement": "In LayerMode3 on a softmax layer with sparsity < 1 the call returns the floor(numNodes*sparsity) best nodes.", "quantifier": "every layer", "why_tests_cant": "All layers.", "anchors": ["layer/layer.go: QueryActiveNodeAndComputeActivations (LayerMode3)"]}
{"id": "C51", "title": "Full density activates every node once", "statement": "With sparsity equal to 1 the active list is 0..numNodes-1 in order, in every mode, and no hash table is read.", "quantifier": "every layer, input, mode", "why_tests_cant": "All layers.", "anchors": ["layer/layer.go: QueryActiveNodeAndComputeActivations"]}
{"id": "C52", "title": "Softmax normalisation", "statement": "After the query on a softmax layer, the normalisation constant of the input is the float64 sum, in active order, of exp(a_j - max(0, max a)) and each active node's last activation is that exponential; all exponents are <= 0.", "quantifier": "every layer state and input with distinct active nodes", "why_tests_cant": "All floats.", "anchors": ["layer/layer.go: QueryActiveNodeAndComputeActivations"]}
{"id": "C53", "title": "Random node order stays a permutation", "statement": "After New and any number of UpdateRandomNodes calls the layer's fallback node order is a permutation of 0..numNodes-1.", "quantifier": "every random stream and number of calls", "why_tests_cant": "All random streams.", "anchors": ["layer/layer.go: New, UpdateRandomNodes"]}
{"id": "C54", "title": "PredictClass counts argmax hits", "statement": "PredictClass returns the number of examples whose predicted class (the active output node with the greatest activation, first on ties, or class 0 when no node is active) is among its labels; the count is between 0 and the number of examples.", "quantifier": "every network and example list", "why_tests_cant": "All networks and inputs.", "anchors": ["network/network.go: PredictClass"]}
{"id": "C55", "title": "PredictClass does not change the learned parameters", "statement": "PredictClass leaves all weights, biases, gradient accumulators, Adam moments and hash tables unchanged.", "quantifier": "every network and example list", "why_tests_cant": "Frame property over the whole heap.", "anchors": ["network/network.go: PredictClass"]}
{"id": "C56", "title": "After a training step no gradient is left over", "statement": "After ProcessInput with Adam (constant cowId), all gradient accumulators of all nodes are zero, and weights have been updated by the Adam rule from the accumulated gradient.", "quantifier": "every network, batch", "why_tests_cant": "All states.", "anchors": ["network/network.go: ProcessInput"]}
{"id": "C57", "title": "After a rehash every node is findable", "statement": "After ProcessInput with rehash on a layer with sparsity < 1, for every table the node's id is the bucket content for the hash of its current weights under the current hash functions, unless more than 128 nodes share the bucket.", "quantifier": "every network, batch, random stream", "why_tests_cant": "All states.", "anchors": ["network/network.go: ProcessInput", "layer/layer.go: UpdateTable, HashTablesAdd"]}
{"id": "C58", "title": "Training never panics on well-formed configurations", "statement": "With a well-formed configuration (sizes consistent, K, L, RangePow large enough, sparsity given for training and prediction) and well-formed examples (labels distinct and in range, features in range and no longer than the input dimension, at most BatchSize per call), any sequence of ProcessInput and PredictClass with the construction cowId never panics.", "quantifier": "every configuration, call sequence and random stream", "why_tests_cant": "All histories.", "anchors": ["network/network.go", "layer/layer.go", "node/node.go"]}
{"id": "C59", "title": "Rehash and rebuild schedule", "statement": "With LayerMode 1 or 4, training iteration t (0-based across epochs) rehashes iff (t+1) is a multiple of Rehash/BatchSize, and rebuilds iff (t+1) is a multiple of Rebuild/BatchSize; with other modes never. If Rehash < BatchSize or Rebuild < BatchSize training panics at the first batch.", "quantifier": "every configuration and iteration", "why_tests_cant": "All configurations.", "anchors": ["goslide.go: trainSvmEpoch"]}
{"id": "C60", "title": "Training batches are consecutive", "statement": "In one epoch, the concatenation of the batches passed to ProcessInput is the first numBatches*BatchSize examples of the file (all of them if fewer), in order, without gap or repetition; all batches are full except possibly trailing ones.", "quantifier": "every dataset and batch configuration", "why_tests_cant": "All datasets.", "anchors": ["goslide.go: trainSvmEpoch"]}
{"id": "C61", "title": "Only the last layer is softmax", "statement": "The layer types given to the network are ReLU for all layers but the last and Softmax for the last; construction with zero layers panics.", "quantifier": "every number of layers", "why_tests_cant": "All sizes.", "anchors": ["goslide.go: makeLayersTypes"]}
{"id": "C62", "title": "Reported accuracy is a proportion", "statement": "evaluateSvm reports totCorrect/(numBatchesTest*BatchSize), a value between 0 and 1 equal to the fraction of evaluated examples predicted correctly when the test file holds enough examples.", "quantifier": "every network and test set", "why_tests_cant": "All inputs.", "anchors": ["goslide.go: evaluateSvm"]}
{"id": "C63", "title": "Random multipliers are positive odd", "statement": "Every random multiplier generated for hashing is odd, positive and representable (no overflow).", "quantifier": "every output of the random source", "why_tests_cant": "2^63 values.", "anchors": ["lsh/lsh.go: positiveOddRandomInt", "densified_wta_hash/densified_wta_hash.go: positiveOddRandomInt"]}
{"id": "C64", "title": "A network stays one consistent object under every history of calls", "statement": "After New and any sequence of ProcessInput and PredictClass calls under the same copy-on-write id, the network returned is the same one: every layer and node is the object it was, no two nodes or layers share storage, and its configuration is unchanged.", "quantifier": "every configuration whose dimensions do not overflow, every random source, every sequence of calls and examples", "why_tests_cant": "All histories; aliasing between nodes only shows as a wrong number much later.", "anchors": ["network/network.go: New, ProcessInput, PredictClass", "layer/layer.go", "node/node.go"]}
{"id": "C65", "title": "The dimensions of a network never change, and nothing is left over between calls", "statement": "After New and any sequence of calls, every layer still has the configured number of nodes and type, every node has one weight per node of the previous layer (and with Adam as many moments and accumulators) and one slot per example of a batch, knows its own position, the fallback order is a permutation of all nodes, the hash tables hold only ids of nodes of the layer, and no gradient or error is left over.", "quantifier": "every configuration whose dimensions do not overflow, every random source, every sequence of calls and examples", "why_tests_cant": "All histories.", "anchors": ["network/network.go: New, ProcessInput, PredictClass", "layer/layer.go", "node/node.go"]}
{"id": "C66", "title": "New draws every weight and bias once and lists every node", "statement": "In a network made by New, the weights and biases of all nodes are 0.01 times distinct draws of the standard normal source, in a fixed order (layer after layer, a layer's weights node by node and then its biases), moments and accumulators are zero, and looking up a node's own weights in its layer's tables finds the node (unless more than 128 nodes share the bucket).", "quantifier": "every configuration whose dimensions do not overflow, every random source", "why_tests_cant": "All sizes and random sources.", "anchors": ["network/network.go: New", "layer/layer.go: New", "node/node.go: Update"]}
{"id": "C67", "title": "The program trains and evaluates one network, in a fixed order", "statement": "The whole program behaves as New followed by a fixed list of training and prediction calls on that one network: for each epoch the training batches in order (an evaluation on 20 batches before a batch when due), then an evaluation on 50 batches, or on all test batches after the last epoch. Training done in an epoch is visible to the later evaluations, and the program fails exactly when one of these calls fails.", "quantifier": "every configuration with positive periods and no counter overflow, every pair of data files in the format, every random source", "why_tests_cant": "All configurations, files and random sources.", "anchors": ["goslide.go: main, trainSvmEpoch, evaluateSvm", "network/network.go: New, ProcessInput, PredictClass"]}
{"id": "C68", "title": "The program finishes without failing on a well-formed configuration and fitting data", "statement": "With sparse random projection or densified WTA hashing whose indices fit the tables, a mode that can choose the active nodes of each layer, and data files in the format whose feature indexes are below InputDim and whose labels are distinct nodes of the last layer, the program reaches its end without a panic or a fatal error.", "quantifier": "every such configuration and pair of files, every random source, every number of epochs and batches", "why_tests_cant": "All configurations, files and random sources.", "anchors": ["goslide.go: main, trainSvmEpoch, evaluateSvm", "network/network.go", "layer/layer.go", "node/node.go"]}
{"id": "C69", "title": "Adam's second moments are never negative and its divisor is never zero", "statement": "After New and any sequence of calls, the stored second moment of every weight and bias is not negative, and the number Adam divides by (its square root plus epsilon) is greater than zero whenever it is a number, so no step divides by zero.", "quantifier": "every configuration whose dimensions do not overflow, every random source, every sequence of calls and examples", "why_tests_cant": "All histories and all float64 gradients, including infinities and NaN.", "anchors": ["node/node.go: Update", "network/network.go: ProcessInput", "layer/layer.go"]}
{"id": "C70", "title": "A training call is one optimiser step with the gradient of its batch", "statement": "With Adam, ProcessInput runs every example with the parameters from before the call, adds up the gradients (error times input activation) in the order of the examples, and moves each weight and bias by one Adam step. Without Adam each example runs with the weights the examples before it left and the biases from before the call, and each active weight moves by the learning rate times error times input.", "quantifier": "every configuration whose dimensions do not overflow, every random source, every history before the call, every batch", "why_tests_cant": "All batches, histories and random sources.", "anchors": ["network/network.go: ProcessInput", "node/node.go: BackPropagate, BackPropagateFirstLayer, Update", "layer/layer.go: QueryActiveNodeAndComputeActivations"]}
{"id": "C71", "title": "Training moves only the weights that were active", "statement": "After any sequence of calls, a weight whose node and whose input were never active in the same training example is still the one New drew (with Adam up to the sign of a zero). In particular the first-layer weights of a feature that occurs in no training example never change.", "quantifier": "every configuration whose dimensions do not overflow (with Adam: finite step sizes), every random source, every sequence of calls and examples", "why_tests_cant": "All histories; a single stray update is invisible in accuracy.", "anchors": ["network/network.go: ProcessInput", "node/node.go: BackPropagate, BackPropagateFirstLayer, Update"]}
{"id": "C72", "title": "A dense network predicts from its parameters and the features alone", "statement": "When every prediction sparsity is 1, the class predicted for an example is a function of the network's node types, weights and biases and of the example's features: hidden tables, earlier predictions and the other examples of the batch have no influence. Hence the number of hits over a set of examples does not depend on how they are ordered and divided into batches.", "quantifier": "every live network with prediction sparsities 1, every memory, every division of the examples into batches", "why_tests_cant": "All networks, histories and divisions; a leak from one example to the next shows only for particular data.", "anchors": ["network/network.go: PredictClass", "layer/layer.go: QueryActiveNodeAndComputeActivations", "node/node.go: GetActivation"]}
{"id": "C73", "title": "Outputs, shares and errors stay in their ranges", "statement": "Along every history of a network whose inputs are float64 numbers, all weights, biases and moments remain float64 numbers; the outputs of a ReLU layer are never negative; the outputs of a softmax layer and each node's share of their sum are between 0 and 1 (or NaN); and the errors of a softmax output layer are between -1 and 1, never positive for a node that is not a label, and never negative for a label when there are at most as many labels as examples in a batch.", "quantifier": "every configuration whose dimensions do not overflow, every random source, every sequence of calls and examples with float64 values, every Exp that is between 0 and 1 on numbers that are not positive", "why_tests_cant": "Rounding, infinities and NaNs in every sum and quotient along all histories.", "anchors": ["network/network.go: ProcessInput, PredictClass", "layer/layer.go: QueryActiveNodeAndComputeActivations", "node/node.go: GetActivation, ComputeExtaStatsForSoftMax"]}
{"id": "C74", "title": "A configuration file means what it says", "statement": "Loading a configuration file succeeds exactly when the file can be read, is JSON, and is null or an object whose value for every known setting is null or of that setting's kind. The configuration then has, for every setting, the value given in the file (keys compared without regard to case; of several values the last; null as if absent) and otherwise the default; unknown keys change nothing. Any configuration written as a file, with its members in any order, is read back unchanged. The program stops before touching any data when it has not exactly one argument or the file is not proper, and otherwise runs exactly with that configuration.", "quantifier": "every file content that is JSON or not, every object with any members in any order, every command line", "why_tests_cant": "All objects: orders, repeated and unknown keys, and ill-typed values of each of the 26 settings.", "anchors": ["configuration/configuration.go: Default, FromJsonFile", "goslide.go: main, validateArguments, loadGlobalConfiguration"]}
{"id": "C75", "title": "The copy-on-write id isolates nothing and is not irrelevant", "statement": "Two networks that differ in nothing but their copy-on-write id are interchangeable in every later call, and a call returns the network it was called on with the id of the call. Training a network under another id leaves what the original predicts unchanged (as the name copy-on-write suggests); and, failing that, the id makes no difference to what training does.", "quantifier": "every network, id, batch, flag and memory; every sequence of calls", "why_tests_cant": "All aliasing situations between copies, over all histories.", "anchors": ["network/network.go: cloneIfNeeded, clone, ProcessInput, PredictClass", "layer/layer.go: cloneIfNeeded", "node/node.go: cloneIfNeeded, copyFloat64Slice"]}
{"id": "C76", "title": "The order of an example's labels does not matter", "statement": "Training on examples whose labels are listed in another order returns the same numbers of touched nodes, leaves the same network behind and panics in the same cases, in every mode but 2 and in mode 2 for fully active layers; prediction counts never depend on the order of the labels.", "quantifier": "every network, memory, batch of examples and permutation of each example's labels", "why_tests_cant": "All permutations, networks and histories; float sums depend on order in general.", "anchors": ["network/network.go: ProcessInput, PredictClass", "layer/layer.go: QueryActiveNodeAndComputeActivations", "node/node.go: ComputeExtaStatsForSoftMax"]}
{"id": "C77", "title": "Training follows the gradient of the cross-entropy", "statement": "For a network of ReLU layers and a final softmax layer, what training computes is a forward and a backward pass over the active nodes which, over the real numbers, for batch size 1 and without the small constants, is the exact gradient: the plain step subtracts from every weight of an active node the learning rate times the derivative of the cross-entropy (summed over the labels' shares) by that weight, and the error of a node is minus the derivative by its bias; for a network of any depth and width. The small constant shifts the error of an output node by at most itself. For larger batches the errors are those of the mean loss.", "quantifier": "every network of the usual layer types, history of calls, example, real-valued network, label set, node and weight", "why_tests_cant": "A statement about derivatives for all networks of all depths; finite differences on samples show it only approximately.", "anchors": ["node/node.go: GetActivation, ComputeExtaStatsForSoftMax, BackPropagate, BackPropagateFirstLayer", "layer/layer.go: QueryActiveNodeAndComputeActivations", "network/network.go: ProcessInput"]}
{"id": "C78", "title": "Weighted sums and random projections are accurate up to rounding", "statement": "A node's activation, computed in float64 one addition after the other, never overflows when the sum of the absolute values is moderate, and differs from the exact weighted sum of the active inputs plus the bias (cut at 0 for a ReLU node) by at most the number of consecutive roundings times 2^-53 relative to the sum of the absolute values, plus half of the smallest number per product; a hash bit of a sparse random projection equals the sign of the exact signed sum of the sampled features unless that sum is within such a rounding slack of 0.", "quantifier": "every node, weights, bias, list of active inputs of any length up to 2^50, random projection and vector", "why_tests_cant": "A bound for all inputs and lengths; tests with tolerances only sample it and choose the tolerance by experience.", "anchors": ["node/node.go: GetActivation", "sparse_random_projection/sparse_random_projection.go: New, GetHash"]}
{"id": "C79", "title": "The tables answer an input with the nodes in its buckets, and a node's own weights with the node", "statement": "In a new network, after any predictions, and after every training call that rehashes (in its sparse layers): looking up an input gives for every table exactly the nodes whose current weights hash to the same bucket of that table, each once; of more than 128 such nodes the 128 with the greatest ids. An input that lists the weight vector of a node, for any of the four hash functions, can always be looked up and every table returns that node (unless 128 nodes with greater ids share the bucket).", "quantifier": "every network, configuration, history of calls, layer, table, input and node", "why_tests_cant": "All weights, inputs, hash functions and histories; which nodes share a bucket depends on all of them.", "anchors": ["layer/layer.go: New, AddToHashTable, HashesToIndex, HashTablesAdd, ClearHashTables, QueryActiveNodeAndComputeActivations", "lsh/lsh.go: Add, RetrieveRaw, HashesToIndex, Clear", "network/network.go: ProcessInput, PredictClass"]}
{"id": "C80", "title": "With Adam no number becomes infinite or NaN, and a call moves a parameter by at most eight learning rates", "statement": "A network whose last layer is a softmax layer and that is trained with Adam never gets an infinite or NaN weight, bias or moment, and no output or error computed on the way is infinite or NaN, as long as the draws, the feature values, the layer sizes, the batch size and the number of calls stay below limits far beyond practical ones and the corrected learning rate is at most 1 and not absurdly small. All weights and biases stay below a bound linear in the number of training calls. One training call moves no weight and no bias by more than 8 times the corrected learning rate (plus the rounding of the sum), whatever the examples are.", "quantifier": "every configuration with Adam and a softmax output, every history of calls within the limits, every example, weight and bias", "why_tests_cant": "Overflow or NaN may need a rare combination of a long history, extreme gradients and small second moments; a test sees a few histories only.", "anchors": ["layer/layer.go: New, QueryActiveNodeAndComputeActivations", "node/node.go: GetActivation, ComputeExtaStatsForSoftMax, BackPropagate, BackPropagateFirstLayer", "network/network.go: ProcessInput", "configuration/configuration.go: Configuration"]}
{"id": "C81", "title": "The random orders are fair", "statement": "Each order of the elements is produced by exactly one sequence of random choices (one below n, then one below n-1, and so on), so that when the random source draws fairly every order is equally likely. This holds for shuffling a list of distinct elements, for the fallback order of a layer made by New, and for the order after UpdateRandomNodes.", "quantifier": "every list of distinct elements, every order of it, every state of the random source, every layer", "why_tests_cant": "Fairness is a statement about all the orders and all the states of the random source; a test draws a few and cannot see a missing or a doubled order (a list of 20 has more than 10^18).", "anchors": ["layer/layer.go: New, UpdateRandomNodes", "wta_hash/wta_hash.go: New", "densified_wta_hash/densified_wta_hash.go: New", "sparse_random_projection/sparse_random_projection.go: New"]}
{"id": "C82", "title": "Networks in one program do not disturb each other", "statement": "When a program makes several networks and uses them in any order, each with the id it was made with, then making or calling one network changes no part of another (weights, biases, moments, tables, hash functions, orders, activations), and the parameters of each network are those given by the calls made on it, whatever happens between them. What a call returns, and what it makes of its network, depends only on the content of that network and on the random source, not on the other networks in memory, on its place or on its id.", "quantifier": "every sequence of New, ProcessInput and PredictClass on any number of networks, every configuration whose dimensions do not overflow, every id", "why_tests_cant": "The networks share memory through slices and pointers; whether some sequence of calls writes through a shared pointer is a question about all sequences and all configurations.", "anchors": ["network/network.go: New, ProcessInput, PredictClass", "layer/layer.go: New, QueryActiveNodeAndComputeActivations, UpdateRandomNodes", "node/node.go: Update, BackPropagate"]}
{"id": "C83", "title": "The hashes ignore what a similarity hash should ignore", "statement": "The densified winner-take-all hashes, dense or sparse, and the minhashes of the kept entries depend only on how the values compare with each other (and, for the dense winner-take-all hash, on which are above -2^63). So multiplying every value by a positive factor, where that is exact, changes none of them. The random projections do not change when every value is multiplied by a power of two, although their sums are rounded.", "quantifier": "every hash table of each family, every vector, every positive factor; for projections every vector of up to 2^50 finite values up to 2^900", "why_tests_cant": "A test compares a vector with a few multiples of it. That rounding, ties in the heap and the densification never let the scale through is a statement about all vectors, all permutations and all factors.", "anchors": ["densified_wta_hash/densified_wta_hash.go: GetHash, GetHashEasy", "densified_minhash/densified_minhash.go: GetHashEasy, GetHashEasyDense", "sparse_random_projection/sparse_random_projection.go: GetHash", "wta_hash/wta_hash.go: GetHashDense"]}
{"id": "C84", "title": "A dense network predicts the class with the best exact score", "statement": "For a network that predicts with every node active and whose only softmax layer is the last: if, with the network's weights and biases taken as real numbers and no rounding at all, one class of the last layer scores better than every other class by more than the accumulated rounding error and a small gap, then PredictClass predicts that class. The rounding error is given by an explicit formula that runs through the layers. The gap is 2^-39 when exp is accurate to 2^-50 of its value.", "quantifier": "every live network with finite parameters whose sums stay below 2^1000, every memory, every list of examples with finite features and a clear winner, every exp that separates its arguments", "why_tests_cant": "A test compares a few predictions with a few expected classes. That neither the order of the additions, nor the shift by the maximum, nor exp can turn a clear winner into a loser is a statement about all weights, depths and inputs.", "anchors": ["network/network.go: PredictClass", "layer/layer.go: QueryActiveNodeAndComputeActivations", "node/node.go: GetActivation"]}
{"id": "C85", "title": "A small enough training step lowers the loss", "statement": "Training on one example with a small enough learning rate lowers the cross-entropy loss on that example, if some active output is not a label and no hidden node sits exactly at the kink of ReLU: all the weights and biases of all the layers move at once, and together they move downhill.", "quantifier": "every depth and width, every weights, biases, features and labels, every small enough rate; the plain step and the first Adam step of a new network", "why_tests_cant": "A test trains a few networks with a few rates. That the joint move of all the parameters lowers the loss for every rate below some bound is a statement about a derivative along a curve in the space of all parameters.", "anchors": ["network/network.go: ProcessInput", "node/node.go: BackPropagate, BackPropagateFirstLayer", "layer/layer.go: QueryActiveNodeAndComputeActivations"]}
{"id": "C86", "title": "Winner-take-all codes are unbiased and collide at the right rate", "statement": "Over the n! equally likely outcomes of the shuffle a bin is cut from, each of the eight codes of the densified winner-take-all hash comes up equally often, whatever the vector. Two vectors get the same code, from either winner-take-all hash, in exactly that share of the outcomes in which a random set of eight features has the same greatest feature in both; and the plain hash names a feature as often as that feature wins a random set of eight.", "quantifier": "every state of the random source before the shuffle and after it, every number of hashes and features, every bin that lies inside one order (all bins when the number of features is a multiple of eight), every vectors of distinct values above -2^63", "why_tests_cant": "Lack of bias is a statement about all n! orders at once: for twenty features there are more than 10^18. A test can only sample them.", "anchors": ["wta_hash/wta_hash.go: New, GetHashDense", "densified_wta_hash/densified_wta_hash.go: New, GetHashEasy"]}
{"id": "C87", "title": "The debugging calls of a node report what training does", "statement": "GetGradient, called just before back-propagation with the value of an input, returns exactly the opposite of what back-propagation then adds for that input: to the gradient accumulator with Adam, and times the learning rate to the weight without. It changes nothing and returns for every input slot. PurturbWeight returns the new weight, which is the old one plus the given amount, and changes no other part of the node.", "quantifier": "every node of a network, every input slot, every list of distinct inputs, every rate, with and without Adam", "why_tests_cant": "The agreement must be exact for all float64 values, including infinities, NaN and signed zeros, and for all memory layouts that share slices.", "anchors": ["node/node.go: GetGradient, PurturbWeight, BackPropagate, BackPropagateFirstLayer"]}
{"id": "C88", "title": "Random projections pick features fairly and give unbiased bits", "statement": "Over the outcomes of the shuffle that makes it, a random projection uses every set of its size of features equally often. Over the choices of its signs, as many give the bit 0 as give the bit 1, except for those with a sum of zero, which all give 0, and those with a NaN, which all give 1; so if neither occurs each bit comes up in exactly half of the outcomes.", "quantifier": "every dimension below 2^53, every ratio, every number of projections and every one of them, every state of the random source before and after, every vector", "why_tests_cant": "A statement about all n! orders and all 2^k sign choices; a test sees one table.", "anchors": ["sparse_random_projection/sparse_random_projection.go: New, GetHash"]}
{"id": "C89", "title": "The nodes LayerMode4 adds at random are a fair sample of the nodes that are not candidates", "statement": "When a LayerMode4 query of a layer adds random nodes to the labels and the retrieved nodes until 1000 are counted, then over the orders in which the layer may have shuffled its nodes every set of that many other nodes is added equally often, and so is every single one of them, whatever position of the order the query starts from.", "quantifier": "every layer in every state, every input, every label list without duplicates, every sparsity below full, every state of the random source, all the orders of the nodes of the layer, provided the query returns for each of them", "why_tests_cant": "A statement about all n! orders of the nodes, and with fewer than 1001 nodes, as in any small test, nothing is sampled.", "anchors": ["layer/layer.go: (*Layer).QueryActiveNodeAndComputeActivations, New, UpdateRandomNodes"]}
{"id": "C90", "title": "The nodes LayerMode2 adds at random are a fair sample of the nodes that are not labels", "statement": "When a LayerMode2 query of a softmax layer adds random nodes to the labels, then over all the sequences of draws that hold enough different nodes, every sequence of that many different nodes that are not labels is added equally often, and so is every single one of them.", "quantifier": "every layer in every state, every input, every label list, every sparsity below full, every number of draws and all the draws, provided the query returns for those that hold enough different nodes", "why_tests_cant": "A statement about all the N^T outcomes of the draws; a test sees one of them, and a skewed sample passes every membership check.", "anchors": ["layer/layer.go: (*Layer).QueryActiveNodeAndComputeActivations"]}
{"id": "C91", "title": "Only the active connections influence a prediction", "statement": "PredictClass depends only on the biases of the nodes it activates, on the weights between active nodes (for the first layer: the weights of the features the examples have) and on the hash tables. Two networks that differ only in nodes left inactive for all the examples, in weights of inputs that are features no example has or inactive nodes of the layer before, and in what only training reads, give the same answer: PredictClass returns on the second as on the first, with the same count, and afterwards the networks still differ only there. In particular any such weight can be changed by PurturbWeight beforehand. LayerMode3 ranks all the nodes by their weights and is excluded.", "quantifier": "every pair of networks in every state, every set of nodes and inputs, every list of examples, every mode but LayerMode3, every hash function, every sampling rate, every node and weight perturbed by any amount", "why_tests_cant": "The claim compares every pair of networks that agree on the active connections; a test compares one pair.", "anchors": ["network/network.go: (*Network).PredictClass", "layer/layer.go: (*Layer).QueryActiveNodeAndComputeActivations", "node/node.go: (*Node).GetActivation, (*Node).PurturbWeight"]}
{"id": "C92", "title": "The number of active nodes is bounded by the tables, not by the layer", "statement": "When a layer is sampled, the number of its nodes that are active for an input does not depend on how many nodes the layer has: with L tables and n known labels, LayerMode1 activates at most n + 128 L / 3 nodes and LayerMode4 at most the greater of 1000 and n + 128 L; in a softmax layer LayerMode2 and LayerMode3 activate exactly the rounded-down share of the layer that the sampling rate asks for. A layer with full rate activates all its nodes. This holds for every query and for every layer of every forward pass of PredictClass and ProcessInput.", "quantifier": "every network made by New, after every history of calls, every layer with RangePow from 0 to 62, every input and label list, every random source", "why_tests_cant": "A bound over all the inputs and all the states of the tables; a test sees a few inputs and the worst case needs full buckets.", "anchors": ["layer/layer.go: (*Layer).QueryActiveNodeAndComputeActivations", "lsh/lsh.go: RetrieveRaw", "bucket/fifo/fifo.go: GetAll"]}
{"id": "C93", "title": "The reported accuracy is that of the network's weights and biases on the test file", "statement": "When predictions use every node, the accuracy printed at the end of an evaluation is the fraction of the first nb*BatchSize test examples whose class, computed from the weights, the biases and the features alone, is one of their labels, rounded to float64, and each line printed on the way is that fraction of the examples read so far; the evaluation leaves the parameters as they were. The last line the program prints is this fraction for the network it has trained. The number does not depend on the batch size, on the order of the test examples or on any other state.", "quantifier": "every configuration with prediction sparsities 1, every network state, every test file, every batch size with at most 2^53 examples, every training history", "why_tests_cant": "A test compares one accuracy with one expected number; that the number depends on nothing but the parameters and the set of examples needs all states and all partitions into batches.", "anchors": ["goslide.go: main, trainSvmEpoch, evaluateSvm", "network/network.go: (*Network).PredictClass"]}
{"id": "C94", "title": "Predicting the same examples again gives the same answer", "statement": "Two PredictClass calls with the same examples, with or without other predictions between them, return the same count. Refuted in general: LayerMode2 samples the output layer at random, and one network counts 1 and then 0 for the same example. True when predictions use every node, in every mode; and with LayerMode1 when only the output layer is sampled and each example has a clear winner (a node in the buckets of more than two tables with a greater activation and output than every other such node): then the winner is the predicted class, whatever the random source and the iteration order of Go's maps do.", "quantifier": "every reachable network, every batch of examples, every random source and map iteration order, every prediction in between", "why_tests_cant": "The order in which Go iterates a map and the random source differ from run to run; a test that passes once says nothing about the next run.", "anchors": ["network/network.go: (*Network).PredictClass", "layer/layer.go: (*Layer).QueryActiveNodeAndComputeActivations"]}
{"id": "C95", "title": "A training call without examples changes nothing", "statement": "ProcessInput with an empty batch, which the program makes for every batch past the end of the training file when TotRecords is too large, leaves every weight and bias as it was, so predictions that use every node count the same examples as before. True without Adam. Refuted with Adam: the call is an Adam step with gradient 0, which moves the parameters on in the direction of the first moments, and an example that was classified correctly can be misclassified after it.", "quantifier": "every network made by New, after every history of calls, every iteration number and rehash and rebuild flags, every batch of test examples", "why_tests_cant": "A test on a new network sees no change, because the moments are still zero; the effect depends on the whole history of training.", "anchors": ["network/network.go: (*Network).ProcessInput", "goslide.go: trainSvmEpoch"]}
{"id": "C96", "title": "With every node active, training is determined by the initial weights and the examples", "statement": "If all training sparsities are 1, the weights and biases after any history depend only on the layer sizes and types, the learning rate, the optimiser, the normal draws of the construction, and the examples and iteration numbers of the training calls in order. They do not depend on the hash function, K, L, RangePow, the layer mode, the other random numbers, the rehash and rebuild flags, or predictions made in between. With prediction sparsities of 1 the counted hits agree as well.", "quantifier": "all pairs of configurations that agree in what is listed, all histories of any length with the same training calls, with Adam and without", "why_tests_cant": "A test compares two runs of two configurations; the claim compares all pairs of configurations over unbounded histories, with arbitrary random sources.", "anchors": ["network/network.go: New, ProcessInput, PredictClass", "layer/layer.go: QueryActiveNodeAndComputeActivations", "node/node.go: BackPropagate, BackPropagateFirstLayer"]}
