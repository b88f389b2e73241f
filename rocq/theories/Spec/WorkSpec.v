(** How many nodes of a sampled layer are active. *)
From Verif.Spec Require Export InferSpec.
Local Open Scope Z_scope.

(** [a] nodes of a layer with [N] nodes and [L] tables may be active for an input with the labels [label], sampled with the
    rate [sp]: apart from the labels, of which only a softmax layer knows, every active node costs at least three of the
    at most 128 L entries of the tables that are looked up (mode 1); the tables and the labels give all of them or there are
    at most 1000 (mode 4); the rate gives their number (softmax layers in modes 2 and 3). *)
Definition active_bound (E : env) (softmax : bool) (L N : Z) (label : list Z) (sp : float64) (a : Z) : Prop :=
  let known := if softmax then Z.of_nat (length label) else 0 in
  if feqb sp fone then a = N
  else match e_Mode E with
  | LayerMode1 => 3 * a <= 128 * L + 3 * known
  | LayerMode4 => a <= Z.max 1000 (128 * L + known)
  | LayerMode2 | LayerMode3 => softmax = true -> a = int_floor (fmul (f_of_Z N) sp)
  | LayerModeOther => True
  end.
(** In memory, layer [j] of the network [n] is the layer at [lp]. *)
Definition layer_of (m : mem) (n : Network) (j lp : nat) : Prop := exists ls, m_la m !! nw_layers n = Some ls /\ ls !! j = Some lp.
