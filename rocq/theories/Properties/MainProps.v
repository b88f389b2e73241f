(** Properties C59-C62: the training and evaluation loops (goslide.go). *)
From Verif.Spec Require Import MainSpec AccuracySpec.
From Verif.Proofs Require Import MainProofs AccuracyProofs.
From Verif.Properties Require Import XcProps.
From Coq Require Import Lia.
Local Open Scope Z_scope.

(** * A concrete program run for the examples: the two-example file of XcProps as training and test
      data, a network 4 -> 3 -> 3, batches of one example. *)
Definition main_half : float64 := fdiv fone (f_of_Z 2).
Definition main_cfg (rehash : Z) : Configuration :=
  mkCfg [2; 2] [1; 1] [3; 3] [fone; main_half; fone; main_half] 1 rehash 2 4 2 2
    main_half 2 1 [3; 3] 2 [] [] true SparseRandomProjectionHashFunction false LayerMode4.
Definition main_world : world :=
  mkWorld (fun _ => Some (reader_ex EOF)) pf_ex (fun x => x) (fun x _ => x) (fun x => x) (fun _ x => x) 100.
Definition main_mem : mem :=
  mkMem [] [] [] [] [] [] [] [] [] [] (mkRng (fun n => Z.of_nat n * 7919) 0)
    (fun n => f_of_Z (Z.of_nat n mod 5 - 2)) 0 0.
Definition main_exs : list Example_ := [example [0; 2] features1_ex; example [1] features2_ex].

Lemma main_delivers : file_delivers main_world [] main_exs.
Proof.
  destruct C35_example as (HF & HW & HC & HL).
  apply (written_file_delivers main_world [] fmt_ex 2 4 3 (take 2 examples_ex) [3;0;5;1]%nat false).
  - rewrite HF. reflexivity.
  - unfold maxInt64. lia.
  - unfold maxInt64. lia.
  - unfold maxInt64. lia.
  - by apply Forall_take.
  - done.
  - by apply Forall_take.
Qed.

(** The whole program runs on it: two epochs of two batches, the second preceded by an evaluation on
    20 batches, and an evaluation after each epoch. *)
Example Main_run_example :
  match main main_world (main_cfg 1) main_mem with
  | Ok (log, _) => length log = (2 * (21 + 51) - 48)%nat
  | Panic _ => False
  end.
Proof. vm_compute. reflexivity. Qed.

(** * C59 Rehash and rebuild schedule *)
Theorem C59_schedule : forall cfg t, 0 < c_BatchSize cfg -> 0 <= t ->
  (sampled (c_LayerMode cfg) = true -> c_BatchSize cfg <= c_Rehash cfg <= maxInt64) ->
  (sampled (c_LayerMode cfg) = true -> c_BatchSize cfg <= c_Rebuild cfg <= maxInt64) ->
  schedule cfg t = Ok (sampled (c_LayerMode cfg) && due (c_Rehash cfg) (c_BatchSize cfg) t,
                       sampled (c_LayerMode cfg) && due (c_Rebuild cfg) (c_BatchSize cfg) t).
Proof. exact schedule_spec. Qed.
Print Assumptions C59_schedule.

(** With a period shorter than a batch, training divides by zero at the first batch. *)
Theorem C59_panics : forall w cfg cowId numBatches net e exs m,
  0 < c_BatchSize cfg -> sampled (c_LayerMode cfg) = true ->
  0 <= c_Rehash cfg < c_BatchSize cfg \/ 0 <= c_Rebuild cfg < c_BatchSize cfg ->
  0 < numBatches -> file_delivers w (c_TrainData cfg) exs ->
  trainSvmEpoch w cfg cowId numBatches net e m = Panic PDivZero.
Proof. exact epoch_panics. Qed.
Print Assumptions C59_panics.

Example C59_ex :
  schedule_ok (main_cfg 3) 2 1 /\
  map (schedule (main_cfg 3)) [0; 1; 2; 3; 4; 5] =
    map Ok [(false, false); (false, true); (true, false); (false, true); (false, false); (true, true)] /\
  match main main_world (main_cfg 0) main_mem with Panic p => p = PDivZero | _ => False end.
Proof.
  split; [|split; vm_compute; reflexivity].
  constructor; cbn; unfold maxInt64; lia.
Qed.

(** * C60 Training batches are consecutive *)
(** An epoch passes to ProcessInput, as batch [i], the [i]-th block of BatchSize examples, with the
    flags of C59 and the iteration number e * numBatches + i. *)
Theorem C60_epoch : forall w cfg cowId numBatches net e exs m,
  schedule_ok cfg numBatches e -> 0 <= numBatches -> file_delivers w (c_TrainData cfg) exs ->
  trainSvmEpoch w cfg cowId numBatches net e m = spec_epoch w cfg cowId numBatches net e exs m.
Proof. exact epoch_spec. Qed.
Print Assumptions C60_epoch.

(** These blocks are the first numBatches * BatchSize examples in order, full except for trailing ones. *)
Theorem C60_batches : forall B numBatches exs, 0 <= B -> 0 <= numBatches ->
  concat (map (fun i => batch B i exs) (seqZ 0 numBatches)) = take (Z.to_nat (numBatches * B)) exs /\
  forall i, 0 <= i -> Z.of_nat (length (batch B i exs)) = Z.min B (Z.max 0 (Z.of_nat (length exs) - i * B)).
Proof. intros B nb exs HB Hn. exact (conj (batches_concat B nb exs HB Hn) (fun i => batch_length B i exs HB)). Qed.
Print Assumptions C60_batches.

Example C60_ex :
  schedule_ok (main_cfg 1) 2 1 /\ file_delivers main_world (c_TrainData (main_cfg 1)) main_exs /\
  map (fun i => length (batch 1 i main_exs)) [0; 1; 2] = [1; 1; 0]%nat.
Proof.
  split; [constructor; cbn; unfold maxInt64; lia|]. split; [exact main_delivers|reflexivity].
Qed.

(** * C61 Only the last layer is softmax *)
Theorem C61_types : forall n, 0 < n ->
  makeLayersTypes n = Ok (replicate (Z.to_nat (n - 1)) ReLU ++ [Softmax]).
Proof. exact types_ok. Qed.
Print Assumptions C61_types.

Theorem C61_no_layers : forall w cfg m, c_NumLayer cfg <= 0 -> exists p, main w cfg m = Panic p.
Proof. exact main_panics. Qed.
Print Assumptions C61_no_layers.

Example C61_ex : makeLayersTypes 3 = Ok [ReLU; ReLU; Softmax].
Proof. reflexivity. Qed.

(** * C62 Reported accuracy is a proportion *)
(** The overall accuracy is the float64 nearest to the number of correct predictions divided by
    numBatchesTest * BatchSize, and lies between 0 and 1; the accuracy logged after batch [j] is the
    same for the first [j + 1] batches.  Every count is at most the size of its batch. *)
Theorem C62_accuracy : forall w cfg cowId nb net exs m log m', let B := c_BatchSize cfg in
  0 < B -> 0 < nb -> nb * B <= 2^53 -> file_delivers w (c_TestData cfg) exs ->
  evaluateSvm w cfg cowId nb net m = Ok (log, m') ->
  exists counts iters q,
    predicts (settings w cfg) cowId net m (map (fun i => batch B i exs) (seqZ 0 nb)) counts m' /\
    log = iters ++ [LogOverall q] /\ proportion q (sumZ counts) (nb * B) /\
    length iters = Z.to_nat nb /\
    (forall j, (j < Z.to_nat nb)%nat -> exists a, iters !! j = Some (LogIter (Z.of_nat j) a) /\
       proportion a (sumZ (take (S j) counts)) (B * (Z.of_nat j + 1))) /\
    Forall2 (fun b k => 0 <= k <= Z.of_nat (length b)) (map (fun i => batch B i exs) (seqZ 0 nb)) counts.
Proof. exact evaluate_accuracy. Qed.
Print Assumptions C62_accuracy.

(** When the file holds enough examples the denominator is the number of evaluated examples. *)
Theorem C62_denominator : forall B nb (exs : list Example_), 0 <= B -> 0 <= nb ->
  nb * B <= Z.of_nat (length exs) ->
  Z.of_nat (length (concat (map (fun i => batch B i exs) (seqZ 0 nb)))) = nb * B.
Proof. exact batches_total. Qed.
Print Assumptions C62_denominator.

(** The network built by the program, evaluated on the two examples. *)
Example C62_ex :
  let cfg := main_cfg 1 in
  file_delivers main_world (c_TestData cfg) main_exs /\
  match (types ← lift (makeLayersTypes 2);
         net ← network_New (settings main_world cfg) 0 2 [3; 3] types 1 main_half 4 [1; 1] [3; 3] [2; 2] (c_Sparsity cfg);
         evaluateSvm main_world cfg 0 2 net) main_mem with
  | Ok (log, _) => log = [LogIter 0 fone; LogIter 1 main_half; LogOverall main_half]
  | Panic _ => False
  end.
Proof. split; [exact main_delivers|]. vm_compute. reflexivity. Qed.
