(** Property C95: training calls without examples. *)
From Verif.Spec Require Import LayerSpec InferSpec ShapeSpec EmptySpec ProgramSpec.
From Verif.Proofs Require Import NetNew NetLive EmptyProofs.
From Verif.Properties Require Import NetProps MainProps.
From Coq Require Import Lia.
Local Open Scope Z_scope.

(** * C95 A training call without examples changes nothing *)
(** Such calls happen: when TotRecords is more than the training file has, the batches past its end are empty. *)
Example C95_reached :
  map (fun o => match o with OpTrain exs _ _ _ => Z.of_nat (length exs) | OpPredict _ => -1 end)
    (program_calls (mkCfg [2; 2] [1; 1] [3; 3] [fone; main_half; fone; main_half] 1 1 2 4 4 2
      main_half 1 5 [3; 3] 2 [] [] true SparseRandomProjectionHashFunction false LayerMode4) main_exs main_exs) =
  [1; 1; 0; 0; -1; -1].
Proof. vm_compute. reflexivity. Qed.

(** Without Adam every weight and bias stays as it is, *)
Theorem C95_sgd : forall E c num sizes types batch lr inputDim k l rp sparsity m n m' os n' m'' iter rehash rebuild ins n'' m3,
  e_LoadWeight E = false -> e_UseAdam E = false -> dims_ok E num sizes batch inputDim ->
  network_New E c num sizes types batch lr inputDim k l rp sparsity m = Ok (n, m') ->
  call_ops E c n os m' = Ok (n', m'') ->
  network_ProcessInput E c n [] iter rehash rebuild m'' = Ok ((ins, n''), m3) ->
  exists nv nv', live E m'' c n nv /\ live E m3 c n nv' /\ parameters_of (nv_layers nv') = parameters_of (nv_layers nv).
Proof. exact empty_sgd. Qed.
Print Assumptions C95_sgd.

(** and so do the predictions that use every node. *)
Theorem C95_sgd_predictions : empty_claim false.
Proof. exact empty_sgd_claim. Qed.
Print Assumptions C95_sgd_predictions.

(** With Adam the call is a step with gradient 0, which goes on in the direction of the first moments, *)
Theorem C95_adam : forall E c num sizes types batch lr inputDim k l rp sparsity m n m' os n' m'' iter rehash rebuild ins n'' m3,
  e_LoadWeight E = false -> e_UseAdam E = true -> dims_ok E num sizes batch inputDim ->
  network_New E c num sizes types batch lr inputDim k l rp sparsity m = Ok (n, m') ->
  call_ops E c n os m' = Ok (n', m'') ->
  network_ProcessInput E c n [] iter rehash rebuild m'' = Ok ((ins, n''), m3) ->
  exists nv nv', live E m'' c n nv /\ live E m3 c n nv' /\
    forall j lv lv' i v v', nv_layers nv !! j = Some lv -> nv_layers nv' !! j = Some lv' ->
      lv_nodes lv !! i = Some v -> lv_nodes lv' !! i = Some v' ->
      identity v' = identity v /\ adam_step (learning_rate E lr iter) (replicate (length (v_w v)) fzero) fzero v v'.
Proof. exact empty_adam. Qed.
Print Assumptions C95_adam.

(** One layer of two classes, all weights 0.  The network learns the class 1 in three calls and then the class 0. *)
Definition empE (adam : bool) : env :=
  mkEnv adam false SparseRandomProjectionHashFunction LayerMode4 (fun x => if fltb x fzero then net_half else fone)
    (fun x _ => x) (fun x => x) (fun _ x => x) 100.
Definition emp0 : mem := mkMem [] [] [] [] [] [] [] [] [] [] (m_rng net0) (fun _ => fzero) 0 0.
Definition emp_ex (label : Z) : Example_ := mkExample (Some [mkPair 0 fone]) (Some [label]).
Definition emp_calls : list net_op :=
  map (fun it => OpTrain [emp_ex (if it <? 3 then 1 else 0)] it false false) [0; 1; 2; 3; 4; 5; 6; 7].
Notation emp_made adam := (network_New (empE adam) 1 1 [2] [Softmax] 1 net_half 4 [1] [2] [2] [fone; fone] emp0).
Lemma emp_dims adam : dims_ok (empE adam) 1 [2] 1 4.
Proof.
  split; [lia|]. split; [lia|]. intros i size prev Hi Hs Hp.
  destruct i as [|i]; cbn in Hs, Hp; [|lia]. injection Hs as <-. injection Hp as <-. split; [lia|]. split; [lia|]. split; [lia|done].
Qed.
Lemma emp_dense n : nw_num n = 1 -> nw_sparsity n = [fone; fone] -> dense_prediction n.
Proof. intros H1 H2 j Hj. rewrite H1 in *. rewrite H2. destruct j; [|lia]. exists fone. split; reflexivity. Qed.
(** The counts before and after a call without examples. *)
Definition emp_counts (adam : bool) : option (Z * Z) :=
  match emp_made adam with
  | Ok (n, m) => match call_ops (empE adam) 1 n emp_calls m with
    | Ok (_, m1) => match network_PredictClass (empE adam) 1 n [emp_ex 1] m1 with
      | Ok ((k1, _), m2) => match network_ProcessInput (empE adam) 1 n [] 8 false false m2 with
        | Ok (_, m3) => match network_PredictClass (empE adam) 1 n [emp_ex 1] m3 with
          | Ok ((k2, _), _) => Some (k1, k2)
          | _ => None end
        | _ => None end
      | _ => None end
    | _ => None end
  | _ => None
  end.
Lemma emp_run adam k1 k2 : emp_counts adam = Some (k1, k2) ->
  exists n m m1 n' n1 m2 ins n2 m3 n3 m4, emp_made adam = Ok (n, m) /\ call_ops (empE adam) 1 n emp_calls m = Ok (n', m1) /\
    dense_prediction n /\ network_PredictClass (empE adam) 1 n [emp_ex 1] m1 = Ok ((k1, n1), m2) /\
    network_ProcessInput (empE adam) 1 n [] 8 false false m2 = Ok ((ins, n2), m3) /\
    network_PredictClass (empE adam) 1 n [emp_ex 1] m3 = Ok ((k2, n3), m4).
Proof.
  unfold emp_counts. intros H. destruct (emp_made adam) as [[n m]|] eqn:E0; [|discriminate H].
  assert (HD : dense_prediction n).
  { pose proof (network_New_ref (empE adam) 1 1 1 4 [2] [Softmax] net_half [1] [2] [2] [fone; fone] emp0 eq_refl (emp_dims adam)) as HR.
    destruct (refines_Ok _ _ _ _ _ HR E0) as (nv & _ & (arr & Harr) & _). apply emp_dense; rewrite Harr; reflexivity. }
  destruct (call_ops _ _ _ _ m) as [[n' m1]|] eqn:E1; [|discriminate H].
  destruct (network_PredictClass _ _ _ _ m1) as [[[c1 n1] m2]|] eqn:E2; [|discriminate H].
  destruct (network_ProcessInput _ _ _ _ _ _ _ m2) as [[[ins n2] m3]|] eqn:E3; [|discriminate H].
  destruct (network_PredictClass _ _ _ _ m3) as [[[c2 n3] m4]|] eqn:E4; [|discriminate H].
  injection H as -> ->.
  exists n, m, m1, n', n1, m2, ins, n2, m3, n3, m4. split; [reflexivity|]. split; [exact E1|]. split; [exact HD|].
  split; [exact E2|]. split; [exact E3|exact E4].
Qed.

Example C95_ex : exists k n m m1 n' n1 m2 ins n2 m3 n3 m4, emp_made false = Ok (n, m) /\ call_ops (empE false) 1 n emp_calls m = Ok (n', m1) /\
    dense_prediction n /\ network_PredictClass (empE false) 1 n [emp_ex 1] m1 = Ok ((k, n1), m2) /\
    network_ProcessInput (empE false) 1 n [] 8 false false m2 = Ok ((ins, n2), m3) /\
    network_PredictClass (empE false) 1 n [emp_ex 1] m3 = Ok ((k, n3), m4).
Proof.
  assert (H : match emp_counts false with Some (k1, k2) => k1 =? k2 | None => false end = true) by (vm_compute; reflexivity).
  destruct (emp_counts false) as [[k1 k2]|] eqn:EC; [|discriminate H]. apply Z.eqb_eq in H as ->. exists k2. exact (emp_run _ _ _ EC).
Qed.

(** so an example that was classified correctly can be misclassified after it. *)
Theorem C95_adam_refuted : ~ empty_claim true.
Proof.
  assert (H : emp_counts true = Some (1, 0)) by (vm_compute; reflexivity).
  apply emp_run in H as (n & m & m1 & n' & n1 & m2 & ins & n2 & m3 & n3 & m4 & H1 & H2 & HD & H3 & H4 & H5).
  intros HC. pose proof (HC (empE true) _ _ _ _ _ _ _ _ _ _ _ _ _ _ _ _ _ _ _ _ _ _ _ _ _ _ _ _ _ _ eq_refl eq_refl (emp_dims true) H1 H2 HD H3 H4 H5). lia.
Qed.
Print Assumptions C95_adam_refuted.
