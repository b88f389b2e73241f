(** Property C93: the accuracy the program reports (goslide.go). *)
From Verif.Spec Require Import LayerSpec InferSpec ReportSpec.
From Verif.Proofs Require Import NetNew NetLive NetSafe ProgramProofs ReportProofs.
From Verif.Properties Require Import XcProps MainProps ProgramProps.
From Flocq Require Import Core BinarySingleNaN.
From Coq Require Import Lia.
Local Open Scope Z_scope.

(** * C93 The reported accuracy is that of the network's weights and biases on the test file *)
(** An evaluation that predicts with every node: each of its lines is the fraction of the examples read so far whose
    class, computed from the parameters and the features alone, is a label.  The parameters are unchanged by it. *)
Theorem C93_evaluate : forall w cfg c nb n nv test m log m',
  live (settings w cfg) m c n nv -> dense_prediction n ->
  0 < c_BatchSize cfg -> 0 < nb -> nb * c_BatchSize cfg <= 2^53 -> file_delivers w (c_TestData cfg) test ->
  evaluateSvm w cfg c nb n m = Ok (log, m') ->
  (exists nv', live (settings w cfg) m' c n nv' /\ parameters_of (nv_layers nv') = parameters_of (nv_layers nv)) /\
  exists iters q, log = iters ++ [LogOverall q] /\ length iters = Z.to_nat nb /\
    proportion q (correct_of (w_exp w) (parameters_of (nv_layers nv)) (take (Z.to_nat (nb * c_BatchSize cfg)) test)) (nb * c_BatchSize cfg) /\
    forall j, 0 <= j < nb -> exists a, iters !! Z.to_nat j = Some (LogIter j a) /\
      proportion a (correct_of (w_exp w) (parameters_of (nv_layers nv)) (take (Z.to_nat ((j + 1) * c_BatchSize cfg)) test)) ((j + 1) * c_BatchSize cfg).
Proof. exact evaluate_reports. Qed.
Print Assumptions C93_evaluate.

(** The whole program: its last line is the fraction of the test examples (as many as fill whole batches) that the
    network it leaves in memory classifies correctly. *)
Theorem C93_program : forall w cfg train test m log m',
  program_ok cfg -> dims_ok (settings w cfg) (c_NumLayer cfg) (c_SizesOfLayers cfg) (c_BatchSize cfg) (c_InputDim cfg) ->
  file_delivers w (c_TrainData cfg) train -> file_delivers w (c_TestData cfg) test -> dense_settings cfg ->
  0 < c_Epoch cfg -> c_BatchSize cfg <= c_TotRecordsTest cfg <= 2^53 ->
  main w cfg m = Ok (log, m') ->
  exists n m1 nv q log0,
    network_New (settings w cfg) 0 (c_NumLayer cfg) (c_SizesOfLayers cfg) (program_types cfg) (c_BatchSize cfg)
      (c_LearningRate cfg) (c_InputDim cfg) (c_K cfg) (c_L cfg) (c_RangePow cfg) (c_Sparsity cfg) m = Ok (n, m1) /\
    live (settings w cfg) m' 0 n nv /\ log = log0 ++ [LogOverall q] /\
    let used := c_TotRecordsTest cfg / c_BatchSize cfg * c_BatchSize cfg in
    proportion q (correct_of (w_exp w) (parameters_of (nv_layers nv)) (take (Z.to_nat used) test)) used.
Proof. exact program_reports. Qed.
Print Assumptions C93_program.

(** Neither the batch size, nor the order of the test examples, nor anything in memory besides the parameters makes a
    difference to the number reported. *)
Theorem C93_same : forall w cfg w' cfg' c nb nb' n nv nv' test test' m m1 log log' m2 m3,
  live (settings w cfg) m c n nv -> live (settings w' cfg') m1 c n nv' -> dense_prediction n ->
  w_exp w' = w_exp w -> parameters_of (nv_layers nv') = parameters_of (nv_layers nv) ->
  0 < c_BatchSize cfg -> 0 < nb -> nb * c_BatchSize cfg <= 2^53 -> file_delivers w (c_TestData cfg) test ->
  0 < c_BatchSize cfg' -> nb' * c_BatchSize cfg' = nb * c_BatchSize cfg -> file_delivers w' (c_TestData cfg') test' ->
  take (Z.to_nat (nb * c_BatchSize cfg)) test ≡ₚ take (Z.to_nat (nb * c_BatchSize cfg)) test' ->
  evaluateSvm w cfg c nb n m = Ok (log, m2) -> evaluateSvm w' cfg' c nb' n m1 = Ok (log', m3) ->
  exists iters q iters' q', log = iters ++ [LogOverall q] /\ log' = iters' ++ [LogOverall q'] /\
    SF2R radix2 q' = SF2R radix2 q.
Proof. exact reports_same. Qed.
Print Assumptions C93_same.

(** Sparse in training, dense in prediction. *)
Definition report_cfg (batch : Z) : Configuration :=
  mkCfg [2; 2] [1; 1] [3; 3] [fone; main_half; fone; fone] batch 2 2 4 2 2
    main_half 1 5 [3; 3] 2 [] [] true SparseRandomProjectionHashFunction false LayerMode4.
Lemma report_ok : program_ok (report_cfg 2).
Proof. constructor; cbn; unfold maxInt64; try done; lia. Qed.
Lemma report_well : well_formed (settings main_world (report_cfg 2)) 2 [3; 3] [ReLU; Softmax] 2 4 [1; 1] [3; 3] [2; 2] [fone; main_half; fone; fone].
Proof.
  split; [lia|]. split; [lia|]. split; [lia|]. intros j Hj.
  destruct j as [|[|j]]; [..|lia]; do 8 eexists; repeat (split; [reflexivity|]); (split; [lia|]); (split; [lia|]); (split; [lia|]); (split; [discriminate|]);
    (split; [first [reflexivity|intros ?; lia]|]); (split; [split; [lia|]; split; [lia|]; cbn; lia|]); split; right; cbn; lia.
Qed.
Lemma report_dense : dense_settings (report_cfg 2).
Proof. intros [|[|j]] Hj; [exists fone; split; reflexivity..|cbn in Hj; lia]. Qed.
Example C93_ex :
  program_ok (report_cfg 2) /\ dims_ok (settings main_world (report_cfg 2)) 2 [3; 3] 2 4 /\ file_delivers main_world [] main_exs /\
  dense_settings (report_cfg 2) /\ 0 < c_Epoch (report_cfg 2) /\ c_BatchSize (report_cfg 2) <= c_TotRecordsTest (report_cfg 2) <= 2^53 /\
  exists log m', main main_world (report_cfg 2) main_mem = Ok (log, m').
Proof.
  split; [exact report_ok|]. split; [exact (well_dims _ _ _ _ _ _ _ _ _ _ _ report_well)|]. split; [exact main_delivers|].
  split; [exact report_dense|]. split; [reflexivity|]. split; [cbn; lia|].
  apply (C68_program main_world (report_cfg 2) main_exs main_exs main_mem report_ok report_well main_delivers main_delivers (proj1 C68_ex)).
  eapply Forall_impl; [exact (proj1 C68_ex)|]. by intros ? [? _].
Qed.

(** A new network evaluated in two batches of one example, and in one batch of two. *)
Lemma report_runs :
  exists n m1 log m2 log' m3,
    network_New (settings main_world (report_cfg 2)) 0 2 [3; 3] [ReLU; Softmax] 2 main_half 4 [1; 1] [3; 3] [2; 2] [fone; main_half; fone; fone] main_mem = Ok (n, m1) /\
    evaluateSvm main_world (report_cfg 1) 0 2 n m1 = Ok (log, m2) /\ evaluateSvm main_world (report_cfg 2) 0 1 n m1 = Ok (log', m3).
Proof.
  assert (H : match network_New (settings main_world (report_cfg 2)) 0 2 [3; 3] [ReLU; Softmax] 2 main_half 4 [1; 1] [3; 3] [2; 2] [fone; main_half; fone; fone] main_mem with
    | Ok (n, m1) => match evaluateSvm main_world (report_cfg 1) 0 2 n m1, evaluateSvm main_world (report_cfg 2) 0 1 n m1 with
                    | Ok _, Ok _ => true | _, _ => false end
    | Panic _ => false end = true) by (vm_compute; reflexivity).
  destruct (network_New _ _ _ _ _ _ _ _ _ _ _ _ _) as [[n m1]|]; [|discriminate H]. exists n, m1.
  destruct (evaluateSvm _ _ _ 2 _ _) as [[log m2]|]; [|discriminate H]. exists log, m2.
  destruct (evaluateSvm _ _ _ 1 _ _) as [[log' m3]|]; [|discriminate H]. exists log', m3. split; [reflexivity|]. split; reflexivity.
Qed.
Example C93_same_ex :
  exists n nv m1 log m2 log' m3,
    live (settings main_world (report_cfg 1)) m1 0 n nv /\ live (settings main_world (report_cfg 2)) m1 0 n nv /\ dense_prediction n /\
    file_delivers main_world (c_TestData (report_cfg 1)) main_exs /\ file_delivers main_world (c_TestData (report_cfg 2)) main_exs /\
    evaluateSvm main_world (report_cfg 1) 0 2 n m1 = Ok (log, m2) /\ evaluateSvm main_world (report_cfg 2) 0 1 n m1 = Ok (log', m3).
Proof.
  destruct report_runs as (n & m1 & log & m2 & log' & m3 & HN & H1 & H2).
  pose proof (network_New_ref (settings main_world (report_cfg 2)) 0 2 2 4 [3; 3] [ReLU; Softmax] main_half
    [1; 1] [3; 3] [2; 2] [fone; main_half; fone; fone] main_mem (po_load _ report_ok) (well_dims _ _ _ _ _ _ _ _ _ _ _ report_well)) as HR.
  destruct (refines_Ok _ _ _ _ _ HR HN) as (nv & _ & (arr & Harr) & L & _).
  assert (HD : dense_prediction n) by (rewrite Harr; exact report_dense).
  exists n, nv, m1, log, m2, log', m3. split; [exact L|]. split; [exact L|]. split; [exact HD|]. split; [exact main_delivers|].
  split; [exact main_delivers|]. split; [exact H1|exact H2].
Qed.
