(** C87: the debugging calls of a node report what training does (package node). *)
From Verif.Spec Require Import BackpropSpec.
From Verif.Proofs Require Import NodeMore ProbeProofs.
From Verif.Properties Require Import NodeProps.
Local Open Scope Z_scope.

(** BackPropagate adds the opposite of what GetGradient reported for the activation of the previous node: to the accumulator with Adam, times the rate to the weight without. *)
Theorem C87_hidden : forall E m c n ly v pa ns lys ps pairs lr i k np x g n' m',
  situated m c n ly v pa ns lys ps -> NoDup (map iv_index pairs) -> k ∈ map iv_index pairs ->
  ns !! Z.to_nat k = Some np -> node_GetLastActivation np i m = Ok (x, m) -> node_GetGradient n i x m = Ok (g, m) ->
  node_BackPropagate E c n pa pairs lr i m = Ok (n', m') ->
  exists v', rep m' c n ly v' /\
    (if e_UseAdam E then v_w v' = v_w v /\ exists t, v_t v !! Z.to_nat k = Some t /\ v_t v' !! Z.to_nat k = Some (fadd t (fneg g))
     else v_t v' = v_t v /\ exists w, v_w v !! Z.to_nat k = Some w /\ v_w v' !! Z.to_nat k = Some (fadd w (fmul lr (fneg g)))).
Proof. exact gradient_hidden. Qed.
Print Assumptions C87_hidden.

(** The same for BackPropagateFirstLayer and the value of a feature. *)
Theorem C87_first : forall E m c n ly v pairs lr i k x g n' m',
  rep m c n ly v -> ly_ok ly -> NoDup (map iv_index pairs) -> mkPair k x ∈ pairs -> node_GetGradient n i x m = Ok (g, m) ->
  node_BackPropagateFirstLayer E c n pairs lr i m = Ok (n', m') ->
  exists v', rep m' c n ly v' /\
    (if e_UseAdam E then v_w v' = v_w v /\ exists t, v_t v !! Z.to_nat k = Some t /\ v_t v' !! Z.to_nat k = Some (fadd t (fneg g))
     else v_t v' = v_t v /\ exists w, v_w v !! Z.to_nat k = Some w /\ v_w v' !! Z.to_nat k = Some (fadd w (fmul lr (fneg g)))).
Proof. exact gradient_first. Qed.
Print Assumptions C87_first.

(** GetGradient changes nothing, and returns for every input slot of the node. *)
Theorem C87_returns : forall m c n ly v i x, rep m c n ly v ->
  ((exists g, node_GetGradient n i x m = Ok (g, m)) <-> 0 <= i < Z.of_nat (length (v_slots v))).
Proof. exact gradient_iff. Qed.
Print Assumptions C87_returns.

(** PurturbWeight returns the new weight and changes that weight only. *)
Theorem C87_perturb : forall m c n ly v k d w, rep m c n ly v -> ly_ok ly -> 0 <= k -> v_w v !! Z.to_nat k = Some w ->
  exists m', node_PurturbWeight c n k d m = Ok ((fadd w d, n), m') /\ rep m' c n ly (v_set_w v (<[Z.to_nat k := fadd w d]> (v_w v))).
Proof. exact perturb. Qed.
Print Assumptions C87_perturb.

Example C87_ex (adam : bool) :
  situated (exmem adam) 1 2 (exlay 2 adam) (exv adam 2) 0 [0; 1]%nat [exlay 0 adam; exlay 1 adam] [exv adam 0; exv adam 1] /\
  node_GetLastActivation 1 1 (exmem adam) = Ok (f_of_Z 3, exmem adam) /\
  node_GetGradient 2 1 (f_of_Z 3) (exmem adam) = Ok (f_of_Z (-6), exmem adam) /\
  (exists m', node_BackPropagate (exE adam) 1 2 0 [mkPair 0 fone; mkPair 1 fone] half 1 (exmem adam) = Ok (2%nat, m')) /\
  (exists m', node_BackPropagateFirstLayer (exE adam) 1 2 [mkPair 0 fone; mkPair 1 (f_of_Z 3)] half 1 (exmem adam) = Ok (2%nat, m')) /\
  v_w (exv adam 2) !! Z.to_nat 1 = Some (f_of_Z 5).
Proof.
  split; [apply exsituated|]. split; [destruct adam; vm_compute; reflexivity|]. split; [destruct adam; vm_compute; reflexivity|].
  split; [destruct adam; eexists; vm_compute; reflexivity|]. split; [destruct adam; eexists; vm_compute; reflexivity|]. by destruct adam.
Qed.
