(** Histories of calls on one node. *)
From Verif.Spec Require Export NodeSpec.

Inductive node_op :=
  | OSetT (i : Z) (x : float64) | OSetAdamAvgMom (i : Z) (x : float64) | OSetAdamAvgVel (i : Z) (x : float64)
  | OSetAdamAvgMomBias (x : float64) | OSetAdamAvgVelBias (x : float64) | OSetBias (x : float64) | OSetTBias (x : float64)
  | OCopyWeightsAndBiasFromMirror
  | OGetActivation (data : list Pair) (i : Z) | OSetlastActivation (i : Z) (x : float64)
  | OIncrementDelta (i : Z) (d : float64) | OComputeExtaStatsForSoftMax (norm : float64) (i : Z) (labels : list Z)
  | OBackPropagate (pairs : list Pair) (lr : float64) (i : Z)
  | OBackPropagateFirstLayer (pairs : list Pair) (lr : float64) (i : Z)
  | OPurturbWeight (i : Z) (d : float64).

(** One call with cowId [c]; [prevs] is the array of the previous layer's nodes.  The result is
    the returned node. *)
Definition run_op (E : env) (c : Z) (prevs n : nat) (o : node_op) : M nat :=
  match o with
  | OSetT i x => node_SetT c n i x
  | OSetAdamAvgMom i x => node_SetAdamAvgMom c n i x
  | OSetAdamAvgVel i x => node_SetAdamAvgVel c n i x
  | OSetAdamAvgMomBias x => node_SetAdamAvgMomBias c n x
  | OSetAdamAvgVelBias x => node_SetAdamAvgVelBias c n x
  | OSetBias x => node_SetBias c n x
  | OSetTBias x => node_SetTBias c n x
  | OCopyWeightsAndBiasFromMirror => node_CopyWeightsAndBiasFromMirror c n
  | OGetActivation data i => '(_, n') ← node_GetActivation c n data i; mret n'
  | OSetlastActivation i x => node_SetlastActivation c n i x
  | OIncrementDelta i d => node_IncrementDelta c n i d
  | OComputeExtaStatsForSoftMax norm i labels => node_ComputeExtaStatsForSoftMax c n norm i labels
  | OBackPropagate pairs lr i => node_BackPropagate E c n prevs pairs lr i
  | OBackPropagateFirstLayer pairs lr i => node_BackPropagateFirstLayer E c n pairs lr i
  | OPurturbWeight i d => '(_, n') ← node_PurturbWeight c n i d; mret n'
  end.

(** A caller that always uses the pointer [n] and drops the returned nodes. *)
Definition run_ops (E : env) (c : Z) (prevs n : nat) (ops : list node_op) : M unit :=
  miter (fun o => _ ← run_op E c prevs n o; mret tt) ops.

(** Calls that recompute, overwrite or clear the activation of input [i]. *)
Definition rewrites (i : Z) (o : node_op) : bool :=
  match o with
  | OGetActivation _ k | OSetlastActivation k _ | OComputeExtaStatsForSoftMax _ k _
  | OBackPropagate _ _ k | OBackPropagateFirstLayer _ _ k => k =? i
  | _ => false
  end.

(** Calls that store scalars or input slots (not elements of the weight, moment or accumulator slices). *)
Definition no_slice_write (o : node_op) : bool :=
  match o with
  | OSetAdamAvgMomBias _ | OSetAdamAvgVelBias _ | OSetBias _ | OSetTBias _ | OCopyWeightsAndBiasFromMirror
  | OGetActivation _ _ | OSetlastActivation _ _ | OIncrementDelta _ _ | OComputeExtaStatsForSoftMax _ _ _ => true
  | _ => false
  end.

(** The mutable objects of a memory are the same objects: no region grew. *)
Definition same_objects (m m' : mem) : Prop :=
  map length (m_f m') = map length (m_f m) /\ length (m_tr m') = length (m_tr m) /\ m_ta m' = m_ta m /\
  length (m_base m') = length (m_base m) /\ m_node m' = m_node m /\ m_na m' = m_na m.

(** Reference effect of one call on the node [v] and the previous layer [ps]. *)
Definition ref_op (adam : bool) (o : node_op) (v : NodeView) (ps : list NodeView) : res (NodeView * list NodeView) :=
  match o with
  | OSetT i x => t ← sset (v_t v) i x; Ok (v_set_t v t, ps)
  | OSetAdamAvgMom i x => t ← sset (v_mom v) i x; Ok (v_set_mom v t, ps)
  | OSetAdamAvgVel i x => t ← sset (v_vel v) i x; Ok (v_set_vel v t, ps)
  | OSetAdamAvgMomBias x => Ok (v_set_biases v (v_bias v) (v_tBias v) x (v_velBias v) (v_mirrorBias v), ps)
  | OSetAdamAvgVelBias x => Ok (v_set_biases v (v_bias v) (v_tBias v) (v_momBias v) x (v_mirrorBias v), ps)
  | OSetBias x => Ok (v_set_biases v x (v_tBias v) (v_momBias v) (v_velBias v) (v_mirrorBias v), ps)
  | OSetTBias x => Ok (v_set_biases v (v_bias v) x (v_momBias v) (v_velBias v) (v_mirrorBias v), ps)
  | OCopyWeightsAndBiasFromMirror =>
      Ok (v_set_biases v (v_mirrorBias v) (v_tBias v) (v_momBias v) (v_velBias v) (v_mirrorBias v), ps)
  | OGetActivation data i => '(_, v') ← ref_activate v data i; Ok (v', ps)
  | OSetlastActivation i x => v' ← ref_set_act v i x; Ok (v', ps)
  | OIncrementDelta i d => v' ← ref_incr v i d; Ok (v', ps)
  | OComputeExtaStatsForSoftMax norm i labels => v' ← ref_softmax v norm i labels; Ok (v', ps)
  | OBackPropagate pairs lr i => ref_backprop adam lr v ps pairs i
  | OBackPropagateFirstLayer pairs lr i => v' ← ref_backprop_first adam lr v pairs i; Ok (v', ps)
  | OPurturbWeight i d => w ← add_at (v_w v) i d; Ok (v_set_w v w, ps)
  end.
Definition ref_ops (adam : bool) (ops : list node_op) (v : NodeView) (ps : list NodeView) : res (NodeView * list NodeView) :=
  foldM (fun st o => ref_op adam o st.1 st.2) (v, ps) ops.

(** No part of node [n] carries cowId [c]: node, base record and input records.  (Weights and
    mirror weights are one slice in every constructed node.) *)
Record foreign (m : mem) (c : Z) (n : nat) (nd : Node) (b : baseNode) (trs : list nat) : Prop := mkForeign {
  fo_node : m_node m !! n = Some nd; fo_cow : n_cowId nd <> c;
  fo_base : m_base m !! n_base nd = Some b; fo_bcow : b_cowId b <> c; fo_alias : b_mirror b = b_weights b;
  fo_trs : telems m (n_train nd) = Some trs;
  fo_tcow : Forall (fun l => exists t, m_tr m !! l = Some t /\ tr_cowId t <> c) trs
}.
