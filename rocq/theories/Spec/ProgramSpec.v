(** The calls the program makes on its network. *)
From Verif.Spec Require Export MainSpec NetSpec SafeSpec.
Local Open Scope Z_scope.

(** The memory a computation ends in. *)
Definition end_of {A} (r : res (A * mem)) : res mem := match r with Ok (_, m) => Ok m | Panic p => Panic p end.

(** Evaluation on the first [nb] batches of [exs]. *)
Definition eval_calls (B nb : Z) (exs : list Example_) : list net_op := map (fun i => OpPredict (batch B i exs)) (seqZ 0 nb).
(** Epoch [e]: batch [i] is trained as iteration [t = e * nb + i], after an evaluation on 20 batches if [i > 0] and
    [t] is a multiple of Stepsize. *)
Definition epoch_calls (cfg : Configuration) (nb e : Z) (train test : list Example_) : list net_op :=
  concat (map (fun i =>
    let t := e * nb + i in
    (if (0 <? i) && (t mod c_Stepsize cfg =? 0) then eval_calls (c_BatchSize cfg) 20 test else []) ++
    [OpTrain (batch (c_BatchSize cfg) i train) t
       (sampled (c_LayerMode cfg) && due (c_Rehash cfg) (c_BatchSize cfg) t)
       (sampled (c_LayerMode cfg) && due (c_Rebuild cfg) (c_BatchSize cfg) t)]) (seqZ 0 nb)).
(** The program: the epochs, each followed by an evaluation on 50 batches, the last one on all batches of the test
    records. *)
Definition program_calls (cfg : Configuration) (train test : list Example_) : list net_op :=
  let B := c_BatchSize cfg in
  concat (map (fun e =>
    epoch_calls cfg (c_TotRecords cfg / B) e train test ++
    eval_calls B (if e =? c_Epoch cfg - 1 then c_TotRecordsTest cfg / B else 50) test) (seqZ 0 (c_Epoch cfg))).
(** The types of the layers: ReLU but for the last one. *)
Definition program_types (cfg : Configuration) : list NodeType := replicate (Z.to_nat (c_NumLayer cfg - 1)) ReLU ++ [Softmax].

(** Settings for which no counter overflows and no period is zero. *)
Record program_ok (cfg : Configuration) : Prop := mkProgOk {
  po_layers : 0 < c_NumLayer cfg;
  po_batch : 0 < c_BatchSize cfg;
  po_step : 0 < c_Stepsize cfg;
  po_rehash : sampled (c_LayerMode cfg) = true -> c_BatchSize cfg <= c_Rehash cfg <= maxInt64;
  po_rebuild : sampled (c_LayerMode cfg) = true -> c_BatchSize cfg <= c_Rebuild cfg <= maxInt64;
  po_records : 0 <= c_TotRecords cfg <= maxInt64;
  po_test : 0 <= c_TotRecordsTest cfg <= maxInt64;
  po_iter : c_Epoch cfg * (c_TotRecords cfg / c_BatchSize cfg) <= maxInt64;
  po_load : c_LoadWeight cfg = false
}.

(** The accuracy in a line of the log. *)
Definition accuracy (l : logline) : float64 := match l with LogIter _ a => a | LogOverall a => a end.
(** Between 0 and 1. *)
Definition fraction (a : float64) : Prop := fleb fzero a = true /\ fleb a fone = true.
