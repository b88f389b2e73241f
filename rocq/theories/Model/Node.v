(** Model of node/node.go: nodes live in the memory of Model/Mem.v and a *Node is an address. *)
From Verif.Model Require Export Mem.

(** Field assignments of baseNode used below (node/node.go:150-191, 367, 369, 407, 409). *)
Definition b_set_bias (v : float64) (b : baseNode) : baseNode :=
  mkBase (b_cowId b) (b_type b) (b_batch b) (b_id b) (b_weights b) (b_mirror b) (b_mom b) (b_vel b) (b_t b) v (b_tBias b) (b_momBias b) (b_velBias b) (b_mirrorBias b).
Definition b_set_tBias (v : float64) (b : baseNode) : baseNode :=
  mkBase (b_cowId b) (b_type b) (b_batch b) (b_id b) (b_weights b) (b_mirror b) (b_mom b) (b_vel b) (b_t b) (b_bias b) v (b_momBias b) (b_velBias b) (b_mirrorBias b).
Definition b_set_momBias (v : float64) (b : baseNode) : baseNode :=
  mkBase (b_cowId b) (b_type b) (b_batch b) (b_id b) (b_weights b) (b_mirror b) (b_mom b) (b_vel b) (b_t b) (b_bias b) (b_tBias b) v (b_velBias b) (b_mirrorBias b).
Definition b_set_velBias (v : float64) (b : baseNode) : baseNode :=
  mkBase (b_cowId b) (b_type b) (b_batch b) (b_id b) (b_weights b) (b_mirror b) (b_mom b) (b_vel b) (b_t b) (b_bias b) (b_tBias b) (b_momBias b) v (b_mirrorBias b).
Definition b_set_mirrorBias (v : float64) (b : baseNode) : baseNode :=
  mkBase (b_cowId b) (b_type b) (b_batch b) (b_id b) (b_weights b) (b_mirror b) (b_mom b) (b_vel b) (b_t b) (b_bias b) (b_tBias b) (b_momBias b) (b_velBias b) v.

(** Field assignments of NodeTrain. *)
Definition tr_set_delta (v : float64) (t : NodeTrain) : NodeTrain := mkTrain (tr_cowId t) v (tr_act t) (tr_active t).
Definition tr_set_act (v : float64) (t : NodeTrain) : NodeTrain := mkTrain (tr_cowId t) (tr_delta t) v (tr_active t).
Definition tr_set_active (v : float64) (t : NodeTrain) : NodeTrain := mkTrain (tr_cowId t) (tr_delta t) (tr_act t) v.

(** NewNodeTrain — node/node.go:42-46 *)
Definition NewNodeTrain (cowId : Z) : M nat := alloc_tr (mkTrain cowId fzero fzero fzero).

(** The zero baseNode with a cowId — node/node.go:51 *)
Definition emptyBase (cowId : Z) : baseNode :=
  mkBase cowId ReLU 0 0 fs_nil fs_nil fs_nil fs_nil fs_nil fzero fzero fzero fzero fzero.

(** NewEmptyNode — node/node.go:48-54 *)
Definition NewEmptyNode (cowId : Z) : M nat :=
  b ← alloc_base (emptyBase cowId);
  alloc_node (mkNode cowId b ts_nil).

(** make([]float64, n) *)
Definition make_f (n : Z) : M fslice :=
  a ← lift (make_slice fzero n);
  l ← alloc_f a;
  mret (mkFs l 0 n).

(** NewNode — node/node.go:56-96 *)
Definition NewNode (E : env) (cowId adamTDim nodeId layerId : Z) (nodeType : NodeType) (batchsize : Z)
    (weights : fslice) (bias : float64) (adamAvgMom adamAvgVel : fslice) : M nat :=
  '(mom, vel, t) ← (if e_UseAdam E then t ← make_f adamTDim; mret (adamAvgMom, adamAvgVel, t)
                    else mret (fs_nil, fs_nil, fs_nil));
  b ← alloc_base (mkBase cowId nodeType batchsize nodeId weights weights mom vel t bias fzero fzero fzero bias);
  slots ← lift (make_slice tt batchsize);
  trs ← mmap (fun _ => NewNodeTrain cowId) slots;
  ta ← alloc_ta trs;
  alloc_node (mkNode cowId b (mkTs ta 0 batchsize)).

(** (n *NodeTrain) clone, cloneIfNeeded — node/node.go:505-519 *)
Definition train_cloneIfNeeded (cowId : Z) (p : nat) : M nat :=
  t ← load_tr p;
  if tr_cowId t =? cowId then mret p
  else alloc_tr (mkTrain cowId (tr_delta t) (tr_act t) (tr_active t)).

(** copyFloat64Slice — node/node.go:527-531: allocates a copy and returns its argument.  The
    copy is unreachable, so it is not allocated here. *)
Definition copyFloat64Slice (s : fslice) : fslice := s.

(** (n *baseNode) clone, cloneIfNeeded — node/node.go:478-503 *)
Definition base_clone (cowId : Z) (b : baseNode) : baseNode :=
  mkBase cowId (b_type b) (b_batch b) (b_id b)
    (copyFloat64Slice (b_weights b)) (copyFloat64Slice (b_mirror b)) (copyFloat64Slice (b_mom b))
    (copyFloat64Slice (b_vel b)) (copyFloat64Slice (b_t b))
    (b_bias b) (b_tBias b) (b_momBias b) (b_velBias b) (b_mirrorBias b).
Definition base_cloneIfNeeded (cowId : Z) (p : nat) : M nat :=
  b ← load_base p;
  if b_cowId b =? cowId then mret p else alloc_base (base_clone cowId b).

(** (n *Node) clone, cloneIfNeeded — node/node.go:456-476.  A nil and an empty train slice
    cannot be told apart by any operation, so nil is not treated separately. *)
Definition node_clone (cowId : Z) (n : Node) : M nat :=
  trs ← (if ts_len (n_train n) <=? 0 then mret []
         else a ← load_ta (ts_loc (n_train n));
              mret (take (Z.to_nat (ts_len (n_train n))) (drop (Z.to_nat (ts_off (n_train n))) a)));
  ta ← alloc_ta trs;
  alloc_node (mkNode cowId (n_base n) (mkTs ta 0 (ts_len (n_train n)))).
Definition node_cloneIfNeeded (cowId : Z) (p : nat) : M nat :=
  n ← load_node p;
  if n_cowId n =? cowId then mret p else node_clone cowId n.

(** n.base = n.base.cloneIfNeeded(cowId); returns n.base *)
Definition own_base (cowId : Z) (p : nat) : M nat :=
  n ← load_node p;
  b ← base_cloneIfNeeded cowId (n_base n);
  _ ← store_node p (mkNode (n_cowId n) b (n_train n));
  mret b.

(** train[inputId] = train[inputId].cloneIfNeeded(cowId) with train = n.train; returns it *)
Definition own_train (cowId : Z) (p : nat) (inputId : Z) : M nat :=
  n ← load_node p;
  t ← tget (n_train n) inputId;
  t' ← train_cloneIfNeeded cowId t;
  _ ← tset (n_train n) inputId t';
  mret t'.

(** n.base, n.train[inputId] *)
Definition get_base (p : nat) : M baseNode := n ← load_node p; load_base (n_base n).
Definition get_train (p : nat) (inputId : Z) : M NodeTrain :=
  n ← load_node p; t ← tget (n_train n) inputId; load_tr t.

(** x.field = value on a base or a train record *)
Definition base_modify (p : nat) (f : baseNode -> baseNode) : M unit := b ← load_base p; store_base p (f b).
Definition train_modify (p : nat) (f : NodeTrain -> NodeTrain) : M unit := t ← load_tr p; store_tr p (f t).

(** Weights, Bias, AdamTDim — node/node.go:98-108 *)
Definition node_Weights (p : nat) : M fslice := b ← get_base p; mret (b_weights b).
Definition node_Bias (p : nat) : M float64 := b ← get_base p; mret (b_bias b).
Definition node_AdamTDim (p : nat) : M Z := b ← get_base p; mret (fs_len (b_t b)).

(** n := nd.cloneIfNeeded(cowId); n.base = n.base.cloneIfNeeded(cowId); n.base.SLICE[i] = value *)
Definition set_slot (slice : baseNode -> fslice) (cowId : Z) (nd : nat) (i : Z) (value : float64) : M nat :=
  n ← node_cloneIfNeeded cowId nd;
  bp ← own_base cowId n;
  b ← load_base bp;
  _ ← fset (slice b) i value;
  mret n.
(** n := nd.cloneIfNeeded(cowId); n.base = n.base.cloneIfNeeded(cowId); n.base.FIELD = value *)
Definition set_scalar (f : float64 -> baseNode -> baseNode) (cowId : Z) (nd : nat) (value : float64) : M nat :=
  n ← node_cloneIfNeeded cowId nd;
  bp ← own_base cowId n;
  _ ← base_modify bp (f value);
  mret n.

(** Getters and setters — node/node.go:110-185 *)
Definition node_GetT (p : nat) (i : Z) : M float64 := b ← get_base p; fget (b_t b) i.
Definition node_SetT := set_slot b_t.
Definition node_GetAdamAvgMom (p : nat) (i : Z) : M float64 := b ← get_base p; fget (b_mom b) i.
Definition node_SetAdamAvgMom := set_slot b_mom.
Definition node_GetAdamAvgVel (p : nat) (i : Z) : M float64 := b ← get_base p; fget (b_vel b) i.
Definition node_SetAdamAvgVel := set_slot b_vel.
Definition node_GetAdamAvgMomBias (p : nat) : M float64 := b ← get_base p; mret (b_momBias b).
Definition node_SetAdamAvgMomBias := set_scalar b_set_momBias.
Definition node_GetAdamAvgVelBias (p : nat) : M float64 := b ← get_base p; mret (b_velBias b).
Definition node_SetAdamAvgVelBias := set_scalar b_set_velBias.
Definition node_GetBias (p : nat) : M float64 := b ← get_base p; mret (b_bias b).
Definition node_SetBias := set_scalar b_set_bias.
Definition node_GetTBias (p : nat) : M float64 := b ← get_base p; mret (b_tBias b).
Definition node_SetTBias := set_scalar b_set_tBias.

(** CopyWeightsAndBiasFromMirror — node/node.go:187-193 *)
Definition node_CopyWeightsAndBiasFromMirror (cowId : Z) (nd : nat) : M nat :=
  n ← node_cloneIfNeeded cowId nd;
  bp ← own_base cowId n;
  b ← load_base bp;
  _ ← fcopy (b_weights b) (b_mirror b);
  _ ← base_modify bp (fun b => b_set_bias (b_mirrorBias b) b);
  mret n.

(** Update — node/node.go:195-228 (layerId is unused) *)
Definition node_Update (E : env) (cowId : Z) (nd : nat) (adamTDim nodeId layerId : Z) (nodeType : NodeType)
    (batchsize : Z) (weights : fslice) (bias : float64) (adamAvgMom adamAvgVel : fslice)
    (trainBlob : tslice) : M nat :=
  n ← node_cloneIfNeeded cowId nd;
  bp ← own_base cowId n;
  b ← load_base bp;
  '(mom, vel, t) ← (if e_UseAdam E then t ← make_f adamTDim; mret (adamAvgMom, adamAvgVel, t)
                    else mret (b_mom b, b_vel b, b_t b));
  _ ← store_base bp (mkBase (b_cowId b) nodeType batchsize nodeId weights weights mom vel t
                       bias (b_tBias b) (b_momBias b) (b_velBias b) bias);
  nn ← load_node n;
  _ ← store_node n (mkNode (n_cowId nn) (n_base nn) trainBlob);
  mret n.

(** t.activeinputIds != 1 *)
Definition inactive (t : NodeTrain) : bool := negb (feqb (tr_active t) fone).

(** GetLastActivation — node/node.go:230-236 *)
Definition node_GetLastActivation (p : nat) (inputId : Z) : M float64 :=
  t ← get_train p inputId;
  mret (if inactive t then fzero else tr_act t).

(** IncrementDelta — node/node.go:238-253 *)
Definition node_IncrementDelta (cowId : Z) (nd : nat) (inputId : Z) (incrementValue : float64) : M nat :=
  t ← get_train nd inputId;
  if inactive t then mpanic (PMsg 1)
  else if fleb (tr_act t) fzero then mret nd
  else
    n ← node_cloneIfNeeded cowId nd;
    tp ← own_train cowId n inputId;
    _ ← train_modify tp (fun t => tr_set_delta (fadd (tr_delta t) incrementValue) t);
    mret n.

(** GetActivation — node/node.go:255-297.  The sum is accumulated in the train record by the code;
    nothing can observe it before the end, so it is accumulated locally here. *)
Definition node_GetActivation (cowId : Z) (nd : nat) (data : list Pair) (inputId : Z) : M (float64 * nat) :=
  b0 ← get_base nd;
  if b_batch b0 <? inputId then mpanic (PMsg 2)
  else
    n ← node_cloneIfNeeded cowId nd;
    tp ← own_train cowId n inputId;
    t ← load_tr tp;
    _ ← (if inactive t then
           _ ← train_modify tp (tr_set_active fone);
           _ ← own_base cowId n; mret tt
         else mret tt);
    b ← get_base n;
    sum ← mfold (fun s p => w ← fget (b_weights b) (iv_index p); mret (fadd s (fmul w (iv_value p)))) fzero data;
    let a := fadd sum (b_bias b) in
    _ ← train_modify tp (tr_set_act a);
    a ← match b_type b with
        | ReLU => if fltb a fzero then _ ← train_modify tp (fun t => tr_set_delta fzero (tr_set_act fzero t)); mret fzero
                  else mret a
        | Softmax => mret a
        | TypeOther => mpanic (PMsg 3)
        end;
    mret (a, n).

(** intSliceContains — node/node.go:533-540 *)
Definition intSliceContains (s : list Z) (v : Z) : bool := existsb (fun x => x =? v) s.

(** The constant 0.0000001, correctly rounded *)
Definition f1em7 : float64 := fdiv fone (f_of_Z (10^7)).

(** ComputeExtaStatsForSoftMax — node/node.go:299-326 *)
Definition node_ComputeExtaStatsForSoftMax (cowId : Z) (nd : nat) (normalizationConstant : float64)
    (inputId : Z) (labels : list Z) : M nat :=
  t0 ← get_train nd inputId;
  if inactive t0 then mpanic (PMsg 1)
  else
    n ← node_cloneIfNeeded cowId nd;
    tp ← own_train cowId n inputId;
    t ← load_tr tp;
    let act := fdiv (tr_act t) (fadd normalizationConstant f1em7) in
    b ← get_base n;
    let share := fdiv act (f_of_Z (b_batch b)) in
    let delta := if intSliceContains labels (b_id b)
                 then fsub (fdiv fone (f_of_Z (Z.of_nat (length labels)))) share
                 else fdiv (fneg act) (f_of_Z (b_batch b)) in
    _ ← train_modify tp (fun t => tr_set_delta delta (tr_set_act act t));
    mret n.

(** x[i] += v on a slice *)
Definition fadd_slot (s : fslice) (i : Z) (v : float64) : M unit := x ← fget s i; fset s i (fadd x v).

(** activeinputIds = 0; lastDeltaforBPs = 0; lastActivations = 0 — node/node.go:372-374, 412-414 *)
Definition tr_reset (t : NodeTrain) : NodeTrain := mkTrain (tr_cowId t) fzero fzero fzero.

(** One iteration of BackPropagate's loop — node/node.go:344-362; [prevs] is the address of the
    array of the previous layer's nodes. *)
Definition backprop_step (E : env) (cowId : Z) (n tp bp : nat) (prevs : nat) (learningRate : float64)
    (inputId : Z) (p : Pair) : M unit :=
  let nodeId := iv_index p in
  ns ← load_na prevs;
  pn ← lift (sget ns nodeId);
  t ← load_tr tp;
  b ← load_base bp;
  w ← fget (b_weights b) nodeId;
  prevNode ← node_IncrementDelta cowId pn inputId (fmul (tr_delta t) w);
  ns ← load_na prevs;
  ns' ← lift (sset ns nodeId prevNode);
  _ ← store_na prevs ns';
  t ← load_tr tp;
  a ← node_GetLastActivation prevNode inputId;
  let gradT := fmul (tr_delta t) a in
  if e_UseAdam E then fadd_slot (b_t b) nodeId gradT
  else fadd_slot (b_mirror b) nodeId (fmul learningRate gradT).

(** BackPropagate — node/node.go:328-377 *)
Definition node_BackPropagate (E : env) (cowId : Z) (nd : nat) (prevs : nat) (previousLayerActiveNodes : list Pair)
    (learningRate : float64) (inputId : Z) : M nat :=
  t0 ← get_train nd inputId;
  if inactive t0 then mpanic (PMsg 1)
  else
    n ← node_cloneIfNeeded cowId nd;
    tp ← own_train cowId n inputId;
    bp ← own_base cowId n;
    _ ← miter (backprop_step E cowId n tp bp prevs learningRate inputId) previousLayerActiveNodes;
    t ← load_tr tp;
    _ ← base_modify bp (fun b =>
          if e_UseAdam E then b_set_tBias (fadd (b_tBias b) (tr_delta t)) b
          else b_set_mirrorBias (fadd (b_mirrorBias b) (fmul learningRate (tr_delta t))) b);
    _ ← train_modify tp tr_reset;
    mret n.

(** BackPropagateFirstLayer — node/node.go:379-417.  The bias step without Adam adds
    learningRate + delta (line 409). *)
Definition node_BackPropagateFirstLayer (E : env) (cowId : Z) (nd : nat) (indexValuePairs : list Pair)
    (learningRate : float64) (inputId : Z) : M nat :=
  t0 ← get_train nd inputId;
  if inactive t0 then mpanic (PMsg 1)
  else
    n ← node_cloneIfNeeded cowId nd;
    tp ← own_train cowId n inputId;
    bp ← own_base cowId n;
    b ← load_base bp;
    _ ← miter (fun p =>
          t ← load_tr tp;
          let gradT := fmul (tr_delta t) (iv_value p) in
          if e_UseAdam E then fadd_slot (b_t b) (iv_index p) gradT
          else fadd_slot (b_mirror b) (iv_index p) (fmul learningRate gradT)) indexValuePairs;
    t ← load_tr tp;
    _ ← base_modify bp (fun b =>
          if e_UseAdam E then b_set_tBias (fadd (b_tBias b) (tr_delta t)) b
          else b_set_mirrorBias (fadd (b_mirrorBias b) (fadd learningRate (tr_delta t))) b);
    _ ← train_modify tp tr_reset;
    mret n.

(** SetlastActivation — node/node.go:419-431 *)
Definition node_SetlastActivation (cowId : Z) (nd : nat) (inputId : Z) (realActivation : float64) : M nat :=
  n ← node_cloneIfNeeded cowId nd;
  tp ← own_train cowId n inputId;
  _ ← train_modify tp (tr_set_act realActivation);
  mret n.

(** PurturbWeight — node/node.go:434-446 *)
Definition node_PurturbWeight (cowId : Z) (nd : nat) (weightId : Z) (delta : float64) : M (float64 * nat) :=
  n ← node_cloneIfNeeded cowId nd;
  bp ← own_base cowId n;
  b ← load_base bp;
  _ ← fadd_slot (b_weights b) weightId delta;
  w ← fget (b_weights b) weightId;
  mret (w, n).

(** GetGradient — node/node.go:448-454 *)
Definition node_GetGradient (p : nat) (inputId : Z) (inputVal : float64) : M float64 :=
  t ← get_train p inputId;
  mret (fmul (fneg (tr_delta t)) inputVal).
