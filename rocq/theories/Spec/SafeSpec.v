(** Configurations, examples and calls that are well-formed. *)
From Verif.Spec Require Export ShapeSpec.

(** The hash settings of a layer with [prev] inputs: [l] tables of [2^rp] buckets, each index made of [k] hash
    values.  The greatest index is [2^k - 1] for sparse random projection and [7 * (4^k - 1) / 3] for densified
    WTA. *)
Definition hash_fits (E : env) (k l rp prev : Z) : Prop :=
  0 <= l /\ 0 <= rp <= 62 /\
  match e_Hash E with
  | SparseRandomProjectionHashFunction => 0 <= k <= rp /\ k * l < 2 ^ 63 /\ 0 <= prev < 2 ^ 53
  | DensifiedWtaHashFunction =>
      0 <= k <= 29 /\ 7 * (4 ^ k - 1) / 3 < 2 ^ rp /\ 8 * (k * l) < 2 ^ 53 /\ 0 < prev <= 2 ^ 53 /\
      0 <= int_of_f (e_log2 E (f_of_Z (k * l))) <= 31
  | _ => False
  end.
(** The mode can choose the active nodes of a layer of [size] nodes. *)
Definition mode_fits (E : env) (ty : NodeType) (size : Z) (sp : float64) : Prop :=
  feqb sp fone = true \/
  match e_Mode E with
  | LayerMode1 | LayerModeOther => True
  | LayerMode2 | LayerMode3 => ty = ReLU
  | LayerMode4 => 0 < size
  end.
(** The same, but also the sampling of a softmax layer in mode 2, which may go on for ever. *)
Definition mode_samples (E : env) (ty : NodeType) (size : Z) (sp : float64) : Prop :=
  mode_fits E ty size sp \/
  (e_Mode E = LayerMode2 /\ 0 < size <= 325056 /\ 0 <= int_floor (fmul (f_of_Z size) sp)).
(** Among any [W] draws in a row, every number below [N] comes up. *)
Definition covers (str : nat -> Z) (N : Z) (W : nat) : Prop :=
  forall p v, 0 <= v < N -> exists q, (p <= q < p + W)%nat /\ str q mod N = v.
(** The same with random numbers that leave nothing out, and at most as many active nodes as nodes: the sampling
    goes through at most [size * W] rounds. *)
Definition mode_covers (str : nat -> Z) (E : env) (ty : NodeType) (size : Z) (sp : float64) : Prop :=
  mode_fits E ty size sp \/
  (e_Mode E = LayerMode2 /\ 0 < size <= 325056 /\ 0 <= int_floor (fmul (f_of_Z size) sp) <= size /\
   exists W, covers str size W /\ (Z.to_nat size * W <= e_fuel E)%nat).
(** The settings of layer [j]; [mode] is what is asked of the mode. *)
Definition layer_fits (mode : NodeType -> Z -> float64 -> Prop) (E : env) (num : Z) (sizes : list Z) (types : list NodeType) (batch inputDim : Z) (k l rp : list Z)
    (sparsity : list float64) (j : nat) : Prop :=
  exists size prev ty kj lj rj sp sp',
    sizes !! j = Some size /\ (inputDim :: sizes) !! j = Some prev /\ types !! j = Some ty /\
    k !! j = Some kj /\ l !! j = Some lj /\ rp !! j = Some rj /\
    sparsity !! j = Some sp /\ sparsity !! (Z.to_nat num + j)%nat = Some sp' /\
    0 <= size /\ size * prev < 2 ^ 63 /\ size * batch < 2 ^ 63 /\
    ty <> TypeOther /\ (Z.of_nat j = num - 1 -> ty = Softmax) /\
    hash_fits E kj lj rj prev /\ mode ty size sp /\ mode ty size sp'.
Definition well_formed_with (mode : NodeType -> Z -> float64 -> Prop) (E : env) (num : Z) (sizes : list Z) (types : list NodeType) (batch inputDim : Z) (k l rp : list Z)
    (sparsity : list float64) : Prop :=
  1 <= num /\ 0 <= batch /\ 0 <= inputDim /\
  forall j, Z.of_nat j < num -> layer_fits mode E num sizes types batch inputDim k l rp sparsity j.
Definition well_formed (E : env) := well_formed_with (mode_fits E) E.
Definition well_formed_sampling (E : env) := well_formed_with (mode_samples E) E.
Definition well_formed_covered (str : nat -> Z) (E : env) := well_formed_with (mode_covers str E) E.
(** A configuration all of whose layers are dense, for training and for prediction. *)
Definition all_dense (num : Z) (types : list NodeType) (sparsity : list float64) : Prop :=
  1 <= num /\
  forall j, Z.of_nat j < num -> exists ty sp sp', types !! j = Some ty /\ ty <> TypeOther /\ (Z.of_nat j = num - 1 -> ty = Softmax) /\
    sparsity !! j = Some sp /\ sparsity !! (Z.to_nat num + j)%nat = Some sp' /\ feqb sp fone = true /\ feqb sp' fone = true.

(** The features of an example are inputs of the network, at most one per input. *)
Definition features_fit (inputDim : Z) (ex : Example_) : Prop :=
  Forall (fun p => 0 <= iv_index p < inputDim) (features ex) /\ Z.of_nat (length (features ex)) <= inputDim.
(** Its labels are distinct nodes of the softmax layers. *)
Definition labels_fit (num : Z) (sizes : list Z) (types : list NodeType) (ex : Example_) : Prop :=
  NoDup (labels ex) /\
  forall j size, Z.of_nat j < num -> types !! j = Some Softmax -> sizes !! j = Some size ->
    Forall (fun x => 0 <= x < size) (labels ex).
(** A call whose examples fit and that has at most [batch] of them. *)
Definition call_fits (num : Z) (sizes : list Z) (types : list NodeType) (batch inputDim : Z) (o : net_op) : Prop :=
  match o with
  | OpTrain exs _ _ _ => Z.of_nat (length exs) <= batch /\ Forall (fun ex => features_fit inputDim ex /\ labels_fit num sizes types ex) exs
  | OpPredict exs => Z.of_nat (length exs) <= batch /\ Forall (features_fit inputDim) exs
  end.

(** In mode 2 the labels fit in the active list of every sparse softmax layer. *)
Definition labels_room (num : Z) (sizes : list Z) (types : list NodeType) (sparsity : list float64) (ex : Example_) : Prop :=
  forall j size sp, Z.of_nat j < num -> types !! j = Some Softmax -> sizes !! j = Some size -> sparsity !! j = Some sp -> feqb sp fone = false ->
    Z.of_nat (length (labels ex)) <= int_floor (fmul (f_of_Z size) sp).
Definition call_room (num : Z) (sizes : list Z) (types : list NodeType) (sparsity : list float64) (o : net_op) : Prop :=
  match o with
  | OpTrain exs _ _ _ => Forall (labels_room num sizes types sparsity) exs
  | OpPredict _ => True
  end.
