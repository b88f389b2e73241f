(** Properties C40-C45: nodes (package node). *)
From Verif.Proofs Require Import NodeMore.

(** * A concrete memory for the examples: a softmax node (id 7) over two ReLU nodes, all with
      cowId 1 and two input slots, built by NewNode and activated by GetActivation. *)
Definition half : float64 := fdiv fone (f_of_Z 2).
Definition exE (adam : bool) : env :=
  mkEnv adam false SparseRandomProjectionHashFunction LayerMode4 (fun x => x) (fun x _ => x) (fun x => x) (fun _ x => x) 100.
Definition mem0 : mem :=
  mkMem [[half; f_of_Z 3; fone; f_of_Z 2; f_of_Z 4; f_of_Z 5]; replicate 6 fzero; replicate 6 fzero] [] [] [] [] [] [] [] [] []
    (mkRng (fun _ => 0) 0) (fun _ => fzero) 0 0.
Definition build (adam : bool) : M unit :=
  p0 ← NewNode (exE adam) 1 2 0 0 ReLU 2 (mkFs 0 0 2) fone (mkFs 1 0 2) (mkFs 2 0 2);
  p1 ← NewNode (exE adam) 1 2 1 0 ReLU 2 (mkFs 0 2 2) fone (mkFs 1 2 2) (mkFs 2 2 2);
  n ← NewNode (exE adam) 1 2 7 1 Softmax 2 (mkFs 0 4 2) half (mkFs 1 4 2) (mkFs 2 4 2);
  _ ← alloc_na [p0; p1];
  '(a0, _) ← node_GetActivation 1 p0 [mkPair 0 fone] 1;
  '(a1, _) ← node_GetActivation 1 p1 [mkPair 1 fone] 1;
  _ ← node_GetActivation 1 n [mkPair 0 a0; mkPair 1 a1] 1;
  _ ← node_IncrementDelta 1 n 1 (f_of_Z 2);
  mret tt.
Definition exmem (adam : bool) : mem := match build adam mem0 with Ok (_, m) => m | Panic _ => mem0 end.
Definition exlay (k : nat) (adam : bool) : Lay :=
  let z := Z.of_nat k in
  mkLay k (mkTs k 0 2) [2 * k; 2 * k + 1]%nat (mkFs 0 (2 * z) 2)
    (if adam then mkFs 1 (2 * z) 2 else fs_nil) (if adam then mkFs 2 (2 * z) 2 else fs_nil)
    (if adam then mkFs (3 + k) 0 2 else fs_nil).
Definition slot0 : Slot := mkSlot fzero fzero fzero.
Definition z2 (adam : bool) : list float64 := if adam then [fzero; fzero] else [].
Definition exv (adam : bool) (k : nat) : NodeView :=
  match k with
  | 0%nat => mkView ReLU 2 0 [half; f_of_Z 3] (z2 adam) (z2 adam) (z2 adam) fone fzero fzero fzero fone
               [slot0; mkSlot fone (fadd half fone) fzero]
  | 1%nat => mkView ReLU 2 1 [fone; f_of_Z 2] (z2 adam) (z2 adam) (z2 adam) fone fzero fzero fzero fone
               [slot0; mkSlot fone (f_of_Z 3) fzero]
  | _ => mkView Softmax 2 7 [f_of_Z 4; f_of_Z 5] (z2 adam) (z2 adam) (z2 adam) half fzero fzero fzero half
               [slot0; mkSlot fone (fadd (f_of_Z 21) half) (f_of_Z 2)]
  end.

Lemma exsituated (adam : bool) :
  situated (exmem adam) 1 2 (exlay 2 adam) (exv adam 2) 0 [0; 1]%nat [exlay 0 adam; exlay 1 adam] [exv adam 0; exv adam 1].
Proof.
  assert (HR : forall k, (k < 3)%nat -> rep (exmem adam) 1 k (exlay k adam) (exv adam k)).
  { intros [|[|[|k]]] Hk; [| | |lia]; destruct adam; constructor; try (vm_compute; reflexivity);
      repeat (apply Forall2_cons; split; [vm_compute; reflexivity|]); apply Forall2_nil; done. }
  assert (HO : forall k, ly_ok (exlay k adam)).
  { intros k. split; [apply NoDup_cons_2; [rewrite elem_of_list_singleton; lia|apply NoDup_singleton]|].
    destruct adam; unfold sdisj; cbn; lia. }
  assert (HA : forall k k', k <> k' -> apart (exlay k adam) (exlay k' adam)).
  { intros k k' Hne. split; [done|]. split.
    - intros l. cbn. rewrite !elem_of_cons, elem_of_nil. lia.
    - intros s s'. unfold ly_slices. rewrite !elem_of_cons, !elem_of_nil.
      destruct adam; intros [->|[->|[->|[->|[]]]]] [->|[->|[->|[->|[]]]]]; unfold sdisj; cbn; lia. }
  constructor.
  - apply HR. lia.
  - apply HO.
  - destruct adam; vm_compute; reflexivity.
  - constructor; [done..|]. intros [|[|j]] n ly v; cbn; intros [= <-] [= <-] [= <-]; apply HR; lia.
  - intros [|[|i]] [|[|j]] a b Hne; cbn; try done; intros [= <-] [= <-]; apply HA; lia.
  - apply Forall_cons; split; [apply HO|]. apply Forall_singleton, HO.
  - apply Forall_cons; split; [apply HA; lia|]. apply Forall_singleton, HA. lia.
Qed.

(** * C40 Copy-on-write isolation of nodes *)

(** False of the code: the clone shares the float slices of the original, so a setter called with
    another cowId returns a different node, and the original reads the new value. *)
Theorem C40_slices_refuted : forall m c0 c n ly v i x,
  rep m c0 n ly v -> c <> c0 ->
  (0 <= i < Z.of_nat (length (v_t v)) ->
    exists n' m', node_SetT c n i x m = Ok (n', m') /\ n' <> n /\ node_GetT n i m' = Ok (x, m')) /\
  (0 <= i < Z.of_nat (length (v_mom v)) ->
    exists n' m', node_SetAdamAvgMom c n i x m = Ok (n', m') /\ n' <> n /\ node_GetAdamAvgMom n i m' = Ok (x, m')) /\
  (0 <= i < Z.of_nat (length (v_vel v)) ->
    exists n' m', node_SetAdamAvgVel c n i x m = Ok (n', m') /\ n' <> n /\ node_GetAdamAvgVel n i m' = Ok (x, m')) /\
  (forall x0, sget (v_w v) i = Ok x0 ->
    exists n' m', node_PurturbWeight c n i x m = Ok ((fadd x0 x, n'), m') /\ n' <> n /\
      (s ← node_Weights n; fget s i) m' = Ok (fadd x0 x, m')).
Proof. exact cow_slices_shared. Qed.
Print Assumptions C40_slices_refuted.

Example C40_slices_refuted_ex : rep (exmem true) 1 2 (exlay 2 true) (exv true 2) /\ 9 <> 1 /\
  0 <= 1 < Z.of_nat (length (v_t (exv true 2))).
Proof. split; [apply (exsituated true)|]. cbn. lia. Qed.

(** Also false of scalars, when an earlier clone shares the base record: [n1] is the clone of [n]
    made by SetBias with cowId 2; SetlastActivation with cowId 3 on [n1] makes [n2], which still
    shares the base record of [n1]; SetBias with cowId 2 on [n2] (whose cowId is 3) changes the
    bias read through [n2]. *)
Definition scalar_witness : M (Z * float64 * float64 * bool) :=
  n1 ← node_SetBias 2 2 (f_of_Z 10);
  n2 ← node_SetlastActivation 3 n1 0 fone;
  nd ← load_node n2;
  old ← node_GetBias n2;
  n3 ← node_SetBias 2 n2 (f_of_Z 20);
  new ← node_GetBias n2;
  mret (n_cowId nd, old, new, bool_decide (n3 = n2)).
Theorem C40_scalar_refuted : exists m',
  scalar_witness (exmem true) = Ok (3, f_of_Z 10, f_of_Z 20, false, m').
Proof. eexists. vm_compute. reflexivity. Qed.
Print Assumptions C40_scalar_refuted.

(** True part: when no part of the node carries the cowId, the setters of scalars and input slots
    leave every existing object unchanged; in particular the original node reads as before.
    Missing: the writes to slice elements (SetT, SetAdamAvgMom, SetAdamAvgVel, PurturbWeight,
    BackPropagate, BackPropagateFirstLayer), which are not isolated. *)
Theorem C40_partial : forall E m c n nd b trs pa o n' m',
  foreign m c n nd b trs -> no_slice_write o = true -> run_op E c pa n o m = Ok (n', m') ->
  extends m m' /\ forall c1 n1 ly v, rep m c1 n1 ly v -> rep m' c1 n1 ly v.
Proof. exact cow_isolated. Qed.
Print Assumptions C40_partial.

Example C40_partial_ex :
  foreign (exmem true) 9 2 (mkNode 1 2 (mkTs 2 0 2)) (default (emptyBase 0) (m_base (exmem true) !! 2%nat)) [4; 5]%nat /\
  exists n' m', run_op (exE true) 9 0 2 (OSetBias (f_of_Z 8)) (exmem true) = Ok (n', m') /\
    node_GetBias n' m' = Ok (f_of_Z 8, m') /\ node_GetBias 2 m' = Ok (half, m').
Proof.
  split.
  - constructor; try (vm_compute; done). repeat constructor; eexists; (split; [vm_compute; reflexivity|done]).
  - eexists _, _. vm_compute. split_and!; reflexivity.
Qed.

(** What [rep m c n ly v] means for the getters. *)
Theorem C40_reads : forall m c n ly v, rep m c n ly v ->
  (forall i, node_GetT n i m = lift (sget (v_t v) i) m) /\
  (forall i, node_GetAdamAvgMom n i m = lift (sget (v_mom v) i) m) /\
  (forall i, node_GetAdamAvgVel n i m = lift (sget (v_vel v) i) m) /\
  node_GetBias n m = Ok (v_bias v, m) /\ node_GetTBias n m = Ok (v_tBias v, m) /\
  node_GetAdamAvgMomBias n m = Ok (v_momBias v, m) /\ node_GetAdamAvgVelBias n m = Ok (v_velBias v, m) /\
  (s ← node_Weights n; fread s) m = Ok (v_w v, m) /\
  (forall i, node_GetLastActivation n i m = lift (act_of v i) m).
Proof. exact node_reads. Qed.
Print Assumptions C40_reads.

(** Constructed nodes satisfy [rep]. *)
Theorem C40_constructed : forall E m c adamTDim id layerId ty batch ws bias ms vs w mom vel n m',
  felems m ws = Some w -> felems m ms = Some mom -> felems m vs = Some vel ->
  NewNode E c adamTDim id layerId ty batch ws bias ms vs m = Ok (n, m') ->
  exists ly, rep m' c n ly (new_view (e_UseAdam E) adamTDim id ty batch w bias mom vel).
Proof. exact NewNode_rep. Qed.
Print Assumptions C40_constructed.

(** * C41 Same cowId mutates in place *)

(** Every history of calls with the owning cowId, by a caller that keeps using the same pointer
    and drops the results: no object is created, the node is still made of the same parts, and its
    content (and that of the previous layer's nodes) is the reference effect of the calls. *)
Theorem C41 : forall E m c n ly v pa ns lys ps ops m',
  situated m c n ly v pa ns lys ps ->
  run_ops E c pa n ops m = Ok (tt, m') ->
  exists v' ps', ref_ops (e_UseAdam E) ops v ps = Ok (v', ps') /\
    same_objects m m' /\ situated m' c n ly v' pa ns lys ps'.
Proof. exact run_ops_inv. Qed.
Print Assumptions C41.

(** Each call returns the pointer it was called on. *)
Theorem C41_pointer : forall E m c n ly v pa ns lys ps o n' m',
  situated m c n ly v pa ns lys ps ->
  run_op E c pa n o m = Ok (n', m') ->
  exists v' ps', ref_op (e_UseAdam E) o v ps = Ok (v', ps') /\ n' = n /\
    same_objects m m' /\ situated m' c n ly v' pa ns lys ps'.
Proof. exact run_op_inv. Qed.
Print Assumptions C41_pointer.

Theorem C41_update : forall E m c n nd b adamTDim id layerId ty batch ws bias ms vs tb n' m',
  m_node m !! n = Some nd -> n_cowId nd = c -> m_base m !! n_base nd = Some b -> b_cowId b = c ->
  node_Update E c n adamTDim id layerId ty batch ws bias ms vs tb m = Ok (n', m') -> n' = n.
Proof. exact Update_same. Qed.
Print Assumptions C41_update.

(** The code panics exactly when the reference does. *)
Theorem C41_panics : forall E m c n ly v pa ns lys ps ops p,
  situated m c n ly v pa ns lys ps ->
  (ref_ops (e_UseAdam E) ops v ps = Panic p <-> run_ops E c pa n ops m = Panic p).
Proof. exact run_ops_panics. Qed.
Print Assumptions C41_panics.

Example C41_ex : situated (exmem true) 1 2 (exlay 2 true) (exv true 2) 0 [0; 1]%nat [exlay 0 true; exlay 1 true] [exv true 0; exv true 1] /\
  exists m', run_ops (exE true) 1 0 2 [OSetT 1 fone; OBackPropagate [mkPair 0 fone; mkPair 1 fone] half 1; OSetBias half] (exmem true) = Ok (tt, m').
Proof. split; [apply exsituated|]. eexists. vm_compute. reflexivity. Qed.

(** * C42 Activation value *)

Theorem C42_value : forall m c n ly v data i a n' m',
  rep m c n ly v -> ly_ok ly -> node_GetActivation c n data i m = Ok ((a, n'), m') ->
  n' = n /\
  (exists sum, weighted_sum (v_w v) data = Ok sum /\
    (v_type v = ReLU /\ a = (if fltb (fadd sum (v_bias v)) fzero then fzero else fadd sum (v_bias v)) \/
     v_type v = Softmax /\ a = fadd sum (v_bias v))) /\
  (v_type v = ReLU -> fltb a fzero = false) /\
  node_GetLastActivation n i m' = Ok (a, m').
Proof. exact activation_value. Qed.
Print Assumptions C42_value.

(** The value stays until the input is recomputed, overwritten or back-propagated, whatever else
    is done with the node. *)
Theorem C42_kept : forall E m c n ly v pa ns lys ps data i a n' m1 ops m2,
  situated m c n ly v pa ns lys ps ->
  node_GetActivation c n data i m = Ok ((a, n'), m1) ->
  Forall (fun o => rewrites i o = false) ops ->
  run_ops E c pa n ops m1 = Ok (tt, m2) ->
  node_GetLastActivation n i m2 = Ok (a, m2).
Proof. exact activation_kept. Qed.
Print Assumptions C42_kept.

Theorem C42_returns : forall m c n ly v data i,
  rep m c n ly v -> ly_ok ly -> 0 <= i < Z.of_nat (length (v_slots v)) -> i <= v_batch v -> v_type v <> TypeOther ->
  (forall p, p ∈ data -> 0 <= iv_index p < Z.of_nat (length (v_w v))) ->
  exists r m', node_GetActivation c n data i m = Ok (r, m').
Proof. exact activation_returns. Qed.
Print Assumptions C42_returns.

Example C42_ex :
  situated (exmem true) 1 2 (exlay 2 true) (exv true 2) 0 [0; 1]%nat [exlay 0 true; exlay 1 true] [exv true 0; exv true 1] /\
  (exists m2, ('(a, _) ← node_GetActivation 1 2 [mkPair 1 fone] 0;
     _ ← run_ops (exE true) 1 0 2 [OBackPropagate [mkPair 1 fone] half 1; OIncrementDelta 0 fone];
     b ← node_GetLastActivation 2 0; mret (a, b)) (exmem true) = Ok ((fadd (f_of_Z 5) half, fadd (f_of_Z 5) half), m2)).
Proof. split; [apply exsituated|]. eexists. vm_compute. reflexivity. Qed.

(** * C43 Back-propagation of one node *)

(** With Adam: accumulators, deltas of the previous nodes and the slot in closed form, from the
    values before the call. *)
Theorem C43_adam : forall E m c n ly v pa ns lys ps pairs lr i s,
  e_UseAdam E = true ->
  situated m c n ly v pa ns lys ps ->
  sget (v_slots v) i = Ok s -> NoDup (map iv_index pairs) ->
  backprop_ok true v ps (map iv_index pairs) i ->
  exists m', node_BackPropagate E c n pa pairs lr i m = Ok (n, m') /\
    situated m' c n ly (node_after_adam v ps (map iv_index pairs) i (s_delta s)) pa ns lys
      (prev_after v ps (map iv_index pairs) i (s_delta s)).
Proof. exact backprop_adam. Qed.
Print Assumptions C43_adam.

Theorem C43_plain : forall E m c n ly v pa ns lys ps pairs lr i s,
  e_UseAdam E = false ->
  situated m c n ly v pa ns lys ps ->
  sget (v_slots v) i = Ok s -> NoDup (map iv_index pairs) ->
  backprop_ok false v ps (map iv_index pairs) i ->
  exists m', node_BackPropagate E c n pa pairs lr i m = Ok (n, m') /\
    situated m' c n ly (node_after_plain lr v ps (map iv_index pairs) i (s_delta s)) pa ns lys
      (prev_after v ps (map iv_index pairs) i (s_delta s)).
Proof. exact backprop_plain. Qed.
Print Assumptions C43_plain.

(** It returns iff the input is active, and every listed previous node exists, is active and has
    a weight; otherwise it panics. *)
Theorem C43_returns_iff : forall E m c n ly v pa ns lys ps pairs lr i,
  situated m c n ly v pa ns lys ps ->
  ((exists r m', node_BackPropagate E c n pa pairs lr i m = Ok (r, m')) <->
   backprop_ok (e_UseAdam E) v ps (map iv_index pairs) i).
Proof. exact backprop_returns_iff. Qed.
Print Assumptions C43_returns_iff.

Example C43_ex (adam : bool) :
  situated (exmem adam) 1 2 (exlay 2 adam) (exv adam 2) 0 [0; 1]%nat [exlay 0 adam; exlay 1 adam] [exv adam 0; exv adam 1] /\
  (exists s, sget (v_slots (exv adam 2)) 1 = Ok s /\ s_delta s = f_of_Z 2) /\
  NoDup (map iv_index [mkPair 0 fone; mkPair 1 fone]) /\
  backprop_ok adam (exv adam 2) [exv adam 0; exv adam 1] (map iv_index [mkPair 0 fone; mkPair 1 fone]) 1.
Proof.
  split; [apply exsituated|]. split; [eexists; done|]. split.
  { apply NoDup_cons_2; [rewrite elem_of_list_singleton; cbn; lia|apply NoDup_singleton]. }
  split; [eexists; split; [done|vm_compute; reflexivity]|].
  cbn. intros j. rewrite !elem_of_cons, elem_of_nil. intros [->|[->|[]]].
  - split; [lia|]. split; [|destruct adam; cbn; lia]. eexists. split; [done|]. eexists. split; [done|vm_compute; reflexivity].
  - split; [lia|]. split; [|destruct adam; cbn; lia]. eexists. split; [done|]. eexists. split; [done|vm_compute; reflexivity].
Qed.

(** * C44 Plain gradient step for the bias *)

(** False of the code: BackPropagateFirstLayer adds learningRate + delta. *)
Definition first_layer_bias (adam : bool) (lr : float64) : M float64 :=
  _ ← node_BackPropagateFirstLayer (exE adam) 1 2 [mkPair 0 fone] lr 1;
  _ ← node_CopyWeightsAndBiasFromMirror 1 2;
  node_GetBias 2.
Theorem C44_refuted : exists m',
  first_layer_bias false half (exmem false) = Ok (fadd half (fadd half (f_of_Z 2)), m') /\
  fadd half (fadd half (f_of_Z 2)) <> fadd half (fmul half (f_of_Z 2)).
Proof. eexists. split; [vm_compute; reflexivity|vm_compute; discriminate]. Qed.
Print Assumptions C44_refuted.

(** What it does for every node, learning rate and delta. *)
Theorem C44_actual : forall E m c n ly v pairs lr i s n' m',
  e_UseAdam E = false -> rep m c n ly v -> ly_ok ly -> sget (v_slots v) i = Ok s ->
  node_BackPropagateFirstLayer E c n pairs lr i m = Ok (n', m') ->
  exists v', rep m' c n ly v' /\ v_bias v' = v_bias v /\ v_mirrorBias v' = fadd (v_mirrorBias v) (fadd lr (s_delta s)).
Proof. exact first_layer_plain. Qed.
Print Assumptions C44_actual.

(** True part: BackPropagate changes the pending bias by learningRate*delta, and with Adam both add
    delta to the bias accumulator.  Missing: the plain step of BackPropagateFirstLayer. *)
Theorem C44_partial : forall E m c n ly v pa ns lys ps pairs lr i s,
  situated m c n ly v pa ns lys ps -> sget (v_slots v) i = Ok s ->
  (forall n' m', node_BackPropagate E c n pa pairs lr i m = Ok (n', m') ->
    exists v', rep m' c n ly v' /\ v_bias v' = v_bias v /\
      v_mirrorBias v' = (if e_UseAdam E then v_mirrorBias v else fadd (v_mirrorBias v) (fmul lr (s_delta s))) /\
      v_tBias v' = (if e_UseAdam E then fadd (v_tBias v) (s_delta s) else v_tBias v)) /\
  (forall n' m', e_UseAdam E = true -> node_BackPropagateFirstLayer E c n pairs lr i m = Ok (n', m') ->
    exists v', rep m' c n ly v' /\ v_bias v' = v_bias v /\ v_mirrorBias v' = v_mirrorBias v /\
      v_tBias v' = fadd (v_tBias v) (s_delta s)).
Proof. exact bias_steps. Qed.
Print Assumptions C44_partial.

Example C44_ex (adam : bool) :
  situated (exmem adam) 1 2 (exlay 2 adam) (exv adam 2) 0 [0; 1]%nat [exlay 0 adam; exlay 1 adam] [exv adam 0; exv adam 1] /\
  (exists s, sget (v_slots (exv adam 2)) 1 = Ok s) /\
  (exists m', node_BackPropagateFirstLayer (exE adam) 1 2 [mkPair 0 fone] half 1 (exmem adam) = Ok (2%nat, m')) /\
  (exists m', node_BackPropagate (exE adam) 1 2 0 [mkPair 0 fone] half 1 (exmem adam) = Ok (2%nat, m')).
Proof.
  split; [apply exsituated|]. split; [eexists; done|].
  split; destruct adam; eexists; vm_compute; reflexivity.
Qed.

(** * C45 Weights and mirror weights *)

(** False of the code: without Adam the very next activation already uses the new weights. *)
Definition mirror_witness : M (float64 * float64) :=
  '(a, _) ← node_GetActivation 1 2 [mkPair 0 fone] 0;
  _ ← node_BackPropagate (exE false) 1 2 0 [mkPair 0 fone] half 1;
  '(b, _) ← node_GetActivation 1 2 [mkPair 0 fone] 0;
  mret (a, b).
Theorem C45_refuted : exists a b m', mirror_witness (exmem false) = Ok ((a, b), m') /\
  a = fadd (f_of_Z 4) half /\ b = f_of_Z 6.
Proof. eexists _, _, _. vm_compute. split_and!; reflexivity. Qed.
Print Assumptions C45_refuted.

(** For every node: the weights read after BackPropagate are the updated ones. *)
Theorem C45_immediate : forall E m c n ly v pa ns lys ps pairs lr i s,
  e_UseAdam E = false ->
  situated m c n ly v pa ns lys ps ->
  sget (v_slots v) i = Ok s -> NoDup (map iv_index pairs) ->
  backprop_ok false v ps (map iv_index pairs) i ->
  exists m', node_BackPropagate E c n pa pairs lr i m = Ok (n, m') /\
    (w ← node_Weights n; fread w) m' =
      Ok (upd_set (map iv_index pairs) (fun j w => fadd w (fmul lr (fmul (s_delta s) (act_at ps i j)))) (v_w v), m').
Proof. exact backprop_visible. Qed.
Print Assumptions C45_immediate.

(** True part: with Adam BackPropagate changes neither weights nor bias; without Adam it leaves the
    bias, which CopyWeightsAndBiasFromMirror then sets to the pending one.  Missing: the weights
    without Adam. *)
Theorem C45_partial : forall E m c n ly v pa ns lys ps pairs lr i n' m',
  situated m c n ly v pa ns lys ps ->
  node_BackPropagate E c n pa pairs lr i m = Ok (n', m') ->
  exists v' ps', situated m' c n ly v' pa ns lys ps' /\ v_bias v' = v_bias v /\
    (e_UseAdam E = true -> v_w v' = v_w v) /\
    exists m'', node_CopyWeightsAndBiasFromMirror c n m' = Ok (n, m'') /\
      node_GetBias n m'' = Ok (v_mirrorBias v', m'') /\
      (w ← node_Weights n; fread w) m'' = Ok (v_w v', m'').
Proof. exact backprop_then_copy. Qed.
Print Assumptions C45_partial.
