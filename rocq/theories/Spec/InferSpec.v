(** What a network computes for an input, and the class it predicts. *)
From Verif.Spec Require Export LearnSpec NetRef LayerSpec.
From stdpp Require Import sorting.
From Verif.Spec Require HashSpec.
Local Open Scope Z_scope.

(** The activation of a node: the weighted sum of the inputs plus the bias, cut off at 0 by ReLU. *)
Definition activation (v : NodeView) (cur : list Pair) (a : float64) : Prop :=
  exists s, weighted_sum (v_w v) cur = Ok s /\
    match v_type v with
    | ReLU => a = if fltb (fadd s (v_bias v)) fzero then fzero else fadd s (v_bias v)
    | Softmax => a = fadd s (v_bias v)
    | TypeOther => False
    end.
(** The activations [acts] of the nodes [ids] of a layer. *)
Definition activations (lv : LayerView) (cur : list Pair) (ids : list Z) (acts : list float64) : Prop :=
  Forall2 (fun id a => 0 <= id /\ exists v, lv_nodes lv !! Z.to_nat id = Some v /\ activation v cur a) ids acts.

(** [mx] is the greatest of 0 and the numbers [xs] (the first such; NaNs do not count). *)
Definition greatest (xs : list float64) (mx : float64) : Prop :=
  exists q, HashSpec.sticky_max (fzero :: xs) q /\ (fzero :: xs) !! q = Some mx.
(** The exponentials of the numbers, relative to [mx]. *)
Definition exps (E : env) (xs : list float64) (mx : float64) : list float64 := map (fun x => e_exp E (fsub x mx)) xs.

(** [x] is a binary64 number (mantissa and exponent within bounds, in normal form). *)
Definition representable (x : float64) : Prop := SpecFloat.valid_binary 53 1024 x = true.
(** All numbers a layer's activations are computed from are binary64 numbers. *)
Definition layer_representable (lv : LayerView) (cur : list Pair) : Prop :=
  Forall (fun v => Forall representable (v_w v) /\ representable (v_bias v)) (lv_nodes lv) /\
  Forall (fun p => representable (iv_value p)) cur.

(** The state of node [k]'s slot for input [i]. *)
Definition slot_at (vs : list NodeView) (k i : Z) : option Slot := v ← vs !! Z.to_nat k; v_slots v !! Z.to_nat i.

(** The output of a layer whose active nodes are [ids]. *)
Definition layer_output (E : env) (lv : LayerView) (cur : list Pair) (ids : list Z) (out : list Pair) : Prop :=
  exists acts, activations lv cur ids acts /\
    if is_softmax (lv_type lv) then exists mx, greatest acts mx /\ out = zip_with mkPair ids (exps E acts mx)
    else out = zip_with mkPair ids acts.

(** The active nodes of a layer: all of them when the sparsity is 1, otherwise those the layer's mode chooses
    (see C46-C51):
    - mode 1: the nodes that score more than 2;
    - mode 2: in a softmax layer the labels and distinct further nodes, up to the target size;
    - mode 3: in a softmax layer all nodes by rank;
    - mode 4: the labels and the nodes found in the tables, and nodes of the fallback order (which is a permutation
      of the nodes in every reachable state, C53).
    In modes 2 and 3 no node of another layer is active. *)
Definition chosen (E : env) (lv : LayerView) (cur : list Pair) (label : list Z) (sp : float64) (ids : list Z) : Prop :=
  let N := Z.of_nat (length (lv_nodes lv)) in
  let softmax := is_softmax (lv_type lv) in
  if feqb sp fone then ids = seqZ 0 N
  else match e_Mode E with
  | LayerMode1 => exists retrieved, found E (lv_hash lv) (lv_tables lv) cur retrieved /\
      NoDup ids /\ forall j, j ∈ ids <-> 2 < tally softmax (lv_l lv) label retrieved j
  | LayerMode2 =>
      if softmax then exists rest, ids = label ++ rest /\ NoDup rest /\ Forall (fun j => 0 <= j < N /\ j ∉ label) rest /\
        Z.of_nat (length ids) = target_size (lv_nodes lv) sp
      else ids = []
  | LayerMode3 =>
      if softmax then exists ps rest, ids = map iv_index ps ++ replicate rest 0 /\
        N + Z.of_nat rest = target_size (lv_nodes lv) sp /\ map iv_index ps ≡ₚ seqZ 0 N /\
        (forall p, p ∈ ps -> exists v, lv_nodes lv !! Z.to_nat (iv_index p) = Some v /\
           rank_key label cur (iv_index p) (v_w v) (v_bias v) (iv_value p)) /\
        (Forall (fun p => is_nan (iv_value p) = false) ps -> ranked ps)
      else ids = []
  | LayerMode4 => exists retrieved, found E (lv_hash lv) (lv_tables lv) cur retrieved /\
      let cand := candidates softmax label retrieved in
      let d := if softmax then Z.of_nat (length label) - distinct label else 0 in
      (lv_rand lv ≡ₚ seqZ 0 N -> 0 <= lv_l lv ->
        exists sel start, ids = sel ++ replicate (Z.to_nat d) 0 /\ StronglySorted Z.lt sel /\ (start < length (lv_rand lv))%nat /\
          forall j, j ∈ sel <-> j ∈ cand \/ j ∈ fill cand (lv_rand lv) (distinct cand + d) start)
  | LayerModeOther => ids = []
  end.

(** [outs] are the features followed by the output of each layer. *)
Definition inference (E : env) (lvs : list LayerView) (sparsity : list float64) (offset : nat) (label : list Z)
    (feats : list Pair) (outs : list (list Pair)) : Prop :=
  length outs = S (length lvs) /\ outs !! 0%nat = Some feats /\
  forall j lv cur out, lvs !! j = Some lv -> outs !! j = Some cur -> outs !! S j = Some out ->
    exists sp ids, sparsity !! (offset + j)%nat = Some sp /\ chosen E lv cur label sp ids /\ layer_output E lv cur ids out.

(** The predicted class for the output [out] of the last layer: 0 if it is empty, otherwise the first node with
    the greatest value (NaNs do not count, except that a NaN in front is never replaced). *)
Definition predicted (out : list Pair) (c : Z) : Prop :=
  (out = [] /\ c = 0) \/
  exists k p, HashSpec.sticky_max (map iv_value out) k /\ out !! k = Some p /\ iv_index p = c.

(** The number of examples whose class is among their labels. *)
Definition hits (exs : list Example_) (classes : list Z) : Z :=
  Z.of_nat (length (filter (fun xc : Example_ * Z => xc.2 ∈ labels xc.1) (zip exs classes))).
