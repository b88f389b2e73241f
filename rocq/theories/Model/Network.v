(** Model of network/network.go. *)
From Verif.Model Require Export Layer Xcrepo.

(** Constants — network/network.go:19-23; 1-beta1 and 1-beta2 are exact constants 0.1 and 0.001.
    Each is the correctly rounded quotient. *)
Definition beta1 : float64 := fdiv (f_of_Z 9) (f_of_Z 10).
Definition beta1c : float64 := fdiv fone (f_of_Z 10).
Definition beta2 : float64 := fdiv (f_of_Z 999) (f_of_Z 1000).
Definition beta2c : float64 := fdiv fone (f_of_Z 1000).
Definition eps : float64 := fdiv fone (f_of_Z (10^8)).

(** type Network — network/network.go:25-31.  hiddenLayers is the address of an array of *Layer.
    A Network is never modified after its construction, so it is passed by value. *)
Record Network := mkNet {
  nw_cowId : Z; nw_layers : nat; nw_lr : float64; nw_num : Z; nw_sparsity : list float64
}.

(** New — network/network.go:33-99.  Nobody can see the hiddenLayers array before New returns, so
    it is allocated at the end. *)
Definition network_New (E : env) (cowId numOfLayers : Z) (sizesOfLayers : list Z) (layerTypes : list NodeType)
    (batchSize : Z) (learningRate : float64) (inputDim : Z) (k l rangePow : list Z) (sparsity : list float64)
    : M Network :=
  slots ← lift (make_slice tt numOfLayers);
  '(ls, _) ← mfold (fun '(ls, prev) i =>
      size ← lift (sget sizesOfLayers i);
      ty ← lift (sget layerTypes i);
      ki ← lift (sget k i);
      li ← lift (sget l i);
      rp ← lift (sget rangePow i);
      sp ← lift (sget sparsity i);
      la ← layer_New E cowId size prev i ty batchSize ki li rp sp fs_nil [] fs_nil fs_nil;
      mret (ls ++ [la], size)) ([], inputDim) (seqZ 0 (Z.of_nat (length slots)));
  a ← alloc_la ls;
  mret (mkNet cowId a learningRate numOfLayers sparsity).

(** clone, cloneIfNeeded — network/network.go:316-329 *)
Definition network_cloneIfNeeded (cowId : Z) (n : Network) : Network :=
  if nw_cowId n =? cowId then n else mkNet cowId (nw_layers n) (nw_lr n) (nw_num n) (nw_sparsity n).

(** nil slices are empty lists *)
Definition features (ex : Example_) : list Pair := default [] (ex_features ex).
Definition labels (ex : Example_) : list Z := default [] (ex_labels ex).

(** One layer of a forward pass — network/network.go:119-128, 190-201: range over hiddenLayers reads
    the element at the start of each iteration. *)
Definition forward_layer (E : env) (cowId : Z) (layers : nat) (inputId : Z) (label : list Z)
    (sparsity : list float64) (offset : Z) (st : list (list Pair) * list Z) (layerIndex : Z)
    : M (list (list Pair) * list Z) :=
  let '(anpl, ins) := st in
  ls ← load_la layers;
  lp ← lift (sget ls layerIndex);
  sp ← lift (sget sparsity (offset + layerIndex));
  '(in_, anpl, lp') ← layer_Query E cowId lp anpl layerIndex inputId label sp;
  ls ← load_la layers;
  ls' ← lift (sset ls layerIndex lp');
  _ ← store_la layers ls';
  mret (anpl, ins ++ [in_]).
Definition forward (E : env) (cowId : Z) (n : Network) (inputId : Z) (feats : list Pair) (label : list Z) (offset : Z)
    : M (list (list Pair) * list Z) :=
  anpl ← lift (make_slice (@nil Pair) (nw_num n + 1));
  anpl ← lift (sset anpl 0 feats);
  ls ← load_la (nw_layers n);
  mfold (forward_layer E cowId (nw_layers n) inputId label (nw_sparsity n) offset) (anpl, []) (seqZ 0 (Z.of_nat (length ls))).

(** The argmax loop — network/network.go:131-140 *)
Definition argmax_step (lastHiddenLayer : nat) (inputId : Z) (st : float64 * Z) (ip : Z * Pair) : M (float64 * Z) :=
  let '(maxAct, predictClass) := st in
  let '(pairIndex, p) := ip in
  n ← layer_GetNodeById lastHiddenLayer (iv_index p);
  act ← node_GetLastActivation n inputId;
  mret (if fltb maxAct act || (pairIndex =? 0) then (act, iv_index p) else (maxAct, predictClass)).

(** One example of PredictClass — network/network.go:115-144: the predicted class *)
Definition predict_one (E : env) (cowId : Z) (n : Network) (lastHiddenLayer : nat) (i : Z) (ex : Example_) : M Z :=
  '(anpl, _) ← forward E cowId n i (features ex) [] (nw_num n);
  out ← lift (sget anpl (nw_num n));
  '(_, predictClass) ← mfold (argmax_step lastHiddenLayer i) (fzero, 0) (indexed out);
  mret predictClass.

(** PredictClass — network/network.go:101-151 *)
Definition network_PredictClass (E : env) (cowId : Z) (ne : Network) (examples : list Example_) : M (Z * Network) :=
  let n := network_cloneIfNeeded cowId ne in
  ls ← load_la (nw_layers n);
  lastHiddenLayer ← lift (sget ls (nw_num n - 1));
  correctPred ← mfold (fun correct '(i, ex) =>
      predictClass ← predict_one E cowId n lastHiddenLayer i ex;
      mret (if intSliceContains (labels ex) predictClass then correct + 1 else correct)) 0 (indexed examples);
  mret (correctPred, n).

(** The learning rate of an iteration — network/network.go:177-183 *)
Definition step_lr (E : env) (lr : float64) (iter : Z) : float64 :=
  if e_UseAdam E then
    let it := fadd (f_of_Z iter) fone in
    fdiv (fmul lr (fsqrt (fsub fone (e_pow E beta2 it)))) (fsub fone (e_pow E beta1 it))
  else lr.

(** Back-propagation of one layer of one example — network/network.go:205-243.  The nodes returned
    by the calls are dropped, as in the code. *)
Definition backward_node (E : env) (cowId : Z) (n : Network) (i : Z) (ex : Example_) (tmpLr : float64)
    (layerIndex : Z) (lp : nat) (curActive : list Pair) (p : Pair) : M unit :=
  node ← layer_GetNodeById lp (iv_index p);
  _ ← (if layerIndex =? nw_num n - 1 then
         norm ← layer_GetNomalizationConstant lp i;
         _ ← node_ComputeExtaStatsForSoftMax cowId node norm i (labels ex); mret tt
       else mret tt);
  if negb (layerIndex =? 0) then
    ls ← load_la (nw_layers n);
    prevLayer ← lift (sget ls (layerIndex - 1));
    allNodes ← layer_GetAllNodes prevLayer;
    _ ← node_BackPropagate E cowId node allNodes curActive tmpLr i; mret tt
  else
    _ ← node_BackPropagateFirstLayer E cowId node (features ex) tmpLr i; mret tt.
Definition backward_layer (E : env) (cowId : Z) (n : Network) (i : Z) (ex : Example_) (tmpLr : float64)
    (anpl : list (list Pair)) (layerIndex : Z) : M unit :=
  ls ← load_la (nw_layers n);
  lp ← lift (sget ls layerIndex);
  curActive ← lift (sget anpl layerIndex);
  nextActive ← lift (sget anpl (layerIndex + 1));
  miter (backward_node E cowId n i ex tmpLr layerIndex lp curActive) nextActive.

(** One training example — network/network.go:186-244 *)
Definition train_one (E : env) (cowId : Z) (n : Network) (tmpLr : float64) (ix : Z * Example_) : M (list Z) :=
  let '(i, ex) := ix in
  '(anpl, ins) ← forward E cowId n i (features ex) (labels ex) 0;
  _ ← miter (backward_layer E cowId n i ex tmpLr anpl) (rev (seqZ 0 (nw_num n)));
  mret ins.

(** The Adam update of one weight — network/network.go:267-281 *)
Definition adam_weight (cowId : Z) (tmpLr : float64) (curWeights : fslice) (tmp : nat) (d : Z) : M nat :=
  t ← node_GetT tmp d;
  mom ← node_GetAdamAvgMom tmp d;
  vel ← node_GetAdamAvgVel tmp d;
  let mom := fadd (fmul beta1 mom) (fmul beta1c t) in
  let vel := fadd (fmul beta2 vel) (fmul (fmul beta2c t) t) in
  _ ← fadd_slot curWeights d (fdiv (fmul (fmul fone tmpLr) mom) (fadd (fsqrt vel) eps));
  tmp ← node_SetAdamAvgMom cowId tmp d mom;
  tmp ← node_SetAdamAvgVel cowId tmp d vel;
  node_SetT cowId tmp d fzero.

(** The Adam update of the bias — network/network.go:283-289 *)
Definition adam_bias (cowId : Z) (tmpLr : float64) (tmp : nat) : M nat :=
  mb ← node_GetAdamAvgMomBias tmp;
  tb ← node_GetTBias tmp;
  tmp ← node_SetAdamAvgMomBias cowId tmp (fadd (fmul beta1 mb) (fmul beta1c tb));
  vb ← node_GetAdamAvgVelBias tmp;
  tb ← node_GetTBias tmp;
  tmp ← node_SetAdamAvgVelBias cowId tmp (fadd (fmul beta2 vb) (fmul (fmul beta2c tb) tb));
  b ← node_GetBias tmp;
  mb ← node_GetAdamAvgMomBias tmp;
  vb ← node_GetAdamAvgVelBias tmp;
  tmp ← node_SetBias cowId tmp (fadd b (fdiv (fmul (fmul fone tmpLr) mb) (fadd (fsqrt vb) eps)));
  node_SetTBias cowId tmp fzero.

(** The update of one node — network/network.go:261-301 *)
Definition update_node (E : env) (cowId : Z) (tmpLr : float64) (rehash : bool) (lp : nat) (m : Z) : M unit :=
  tmp ← layer_GetNodeById lp m;
  curWeights ← node_Weights tmp;
  tmp ← (if e_UseAdam E then
           dim ← node_AdamTDim tmp;
           tmp ← mfold (adam_weight cowId tmpLr curWeights) tmp (seqZ 0 dim);
           adam_bias cowId tmpLr tmp
         else node_CopyWeightsAndBiasFromMirror cowId tmp);
  if rehash then
    hashes ← layer_GetHashForInputProcessing E lp curWeights;
    indices ← layer_HashesToIndex E lp hashes;
    _ ← layer_HashTablesAdd lp indices m; mret tt
  else mret tt.

(** The update of one layer — network/network.go:247-303: [lp] stays the layer read at the start of
    the iteration even when UpdateTable returns another one. *)
Definition update_layer (E : env) (cowId : Z) (n : Network) (tmpLr : float64) (rehash rebuild : bool) (layerIndex : Z)
    : M unit :=
  ls ← load_la (nw_layers n);
  lp ← lift (sget ls layerIndex);
  sp ← lift (sget (nw_sparsity n) layerIndex);
  let tmpRehash := rehash && fltb sp fone in
  let tmpRebuild := rebuild && fltb sp fone in
  _ ← (if tmpRehash then layer_ClearHashTables lp else mret tt);
  _ ← (if tmpRebuild then
         lp' ← layer_UpdateTable E cowId lp;
         ls ← load_la (nw_layers n);
         ls' ← lift (sset ls layerIndex lp');
         store_la (nw_layers n) ls'
       else mret tt);
  N ← layer_NumOfNodes lp;
  miter (update_node E cowId tmpLr tmpRehash lp) (seqZ 0 N).

(** ProcessInput — network/network.go:153-314.  The returned logLoss is always 0; the sample sizes
    printed on rehash are returned instead ([avgRetrieval], one list of counts per example). *)
Definition network_ProcessInput (E : env) (cowId : Z) (ne : Network) (examples : list Example_) (iter : Z)
    (rehash rebuild : bool) : M (list (list Z) * Network) :=
  let n := network_cloneIfNeeded cowId ne in
  _ ← lift (make_slice 0 (nw_num n));
  _ ← (if Z.rem iter 6946 =? 6945 then
         miter (fun i => ls ← load_la (nw_layers n); lp ← lift (sget ls i); layer_UpdateRandomNodes lp)
           (seqZ 1 (nw_num n - 1))
       else mret tt);
  let tmpLr := step_lr E (nw_lr n) iter in
  ins ← mmap (train_one E cowId n tmpLr) (indexed examples);
  ls ← load_la (nw_layers n);
  _ ← miter (update_layer E cowId n tmpLr rehash rebuild) (seqZ 0 (Z.of_nat (length ls)));
  mret (ins, n).
