(** What it means that two networks differ only in some nodes, and that a node took no part in a call. *)
From Verif.Spec Require Export NetSpec.
Local Open Scope Z_scope.

(** The nodes agree in everything a prediction can read, except for the weights of the inputs [q] with [A q]. What
    only training uses (moments, accumulated gradients) may differ. *)
Definition same_but_weights (A : nat -> Prop) (v v2 : NodeView) : Prop :=
  v_type v2 = v_type v /\ v_batch v2 = v_batch v /\ v_bias v2 = v_bias v /\ v_slots v2 = v_slots v /\
  length (v_w v2) = length (v_w v) /\ forall q, ~ A q -> v_w v2 !! q = v_w v !! q.
(** The networks agree in everything a prediction can read, except for the content of the nodes [k] of the layers [j]
    with [D j k] and the weights that layer [j] gives to the inputs [q] with [A j q]. *)
Record differ_only (D A : nat -> nat -> Prop) (nv nv2 : NetView) : Prop := mkDiffer {
  di_rng : nv_rng nv2 = nv_rng nv;
  di_seeds : nv_seeds nv2 = nv_seeds nv;
  di_layers : length (nv_layers nv2) = length (nv_layers nv);
  di_layer : forall j lv lv2, nv_layers nv !! j = Some lv -> nv_layers nv2 !! j = Some lv2 ->
    lv_type lv2 = lv_type lv /\ lv_rand lv2 = lv_rand lv /\ lv_norm lv2 = lv_norm lv /\ lv_k lv2 = lv_k lv /\ lv_l lv2 = lv_l lv /\
    lv_prev lv2 = lv_prev lv /\ lv_tables lv2 = lv_tables lv /\ lv_hash lv2 = lv_hash lv /\ length (lv_nodes lv2) = length (lv_nodes lv);
  di_node : forall j k lv lv2 v v2, nv_layers nv !! j = Some lv -> nv_layers nv2 !! j = Some lv2 -> ~ D j k ->
    lv_nodes lv !! k = Some v -> lv_nodes lv2 !! k = Some v2 -> same_but_weights (A j) v v2
}.
(** Node [k] of layer [j] is marked as active for none of the inputs 0 to [b - 1]. *)
Definition idle (nv : NetView) (b j k : nat) : Prop :=
  forall lv v q s, nv_layers nv !! j = Some lv -> lv_nodes lv !! k = Some v -> (q < b)%nat -> v_slots v !! q = Some s ->
  feqb (s_active s) fone = false.
(** Input [q] of layer [j] takes no part in the call with the examples [exs] that left [nv]: it is a feature none of the
    examples has, or a node of the layer before that is idle. *)
Definition unused (nv : NetView) (exs : list Example_) (j q : nat) : Prop :=
  match j with
  | O => forall ex p, ex ∈ exs -> p ∈ features ex -> iv_index p <> Z.of_nat q
  | S j' => idle nv (length exs) j' q
  end.

(** In memory, node [k] of layer [j] of the network [n] is the node at [np]. *)
Definition node_of (m : mem) (n : Network) (j k np : nat) : Prop :=
  exists ls lp L ns, m_la m !! nw_layers n = Some ls /\ ls !! j = Some lp /\ m_layer m !! lp = Some L /\
    m_na m !! l_nodes L = Some ns /\ ns !! k = Some np.
(** The node at [np] is marked as active for none of the inputs 0 to [b - 1]. *)
Definition idle_at (m : mem) (np b : nat) : Prop :=
  forall nd ts q t tr, m_node m !! np = Some nd -> telems m (n_train nd) = Some ts -> (q < b)%nat -> ts !! q = Some t ->
    m_tr m !! t = Some tr -> feqb (tr_active tr) fone = false.
(** Weight [w] of node [k] of layer [j] is not used by the call with the examples [exs] that left the memory [m]: the node is
    idle, or the input it belongs to is a feature none of the examples has or an idle node of the layer before. *)
Definition unread (m : mem) (n : Network) (exs : list Example_) (j k : nat) (w : Z) : Prop :=
  (exists np, node_of m n j k np /\ idle_at m np (length exs)) \/
  match j with
  | O => forall ex p, ex ∈ exs -> p ∈ features ex -> iv_index p <> w
  | S j' => exists np, node_of m n j' (Z.to_nat w) np /\ idle_at m np (length exs)
  end.
