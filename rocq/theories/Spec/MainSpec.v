(** The training and evaluation loops of the program, described on lists of examples. *)
From Verif.Model Require Export Main.
From Verif.Spec Require Export XcSpec.
Local Open Scope Z_scope.

(** A file from which a scanner delivers exactly the examples [exs], without error, however often
    Scan is called afterwards. *)
Definition delivers (pf : bytes -> option float64) (s : Scanner) (exs : list Example_) : Prop :=
  forall k, exists s', x_calls pf (length exs + k) s = Ok (map (fun e => (true, e)) exs ++ replicate k (false, no_example), s') /\
    x_Err s' = None.
Definition file_delivers (w : world) (name : bytes) (exs : list Example_) : Prop :=
  exists r s, w_open w name = Some r /\ x_NewScanner r = Ok s /\ delivers (w_parseFloat w) s exs.

(** The configuration as the packages read it, and the library functions they use. *)
Definition settings (w : world) (c : Configuration) : env := {|
  e_UseAdam := c_UseAdam c; e_LoadWeight := c_LoadWeight c; e_Hash := c_HashFunction c; e_Mode := c_LayerMode c;
  e_exp := w_exp w; e_pow := w_pow w; e_log2 := w_log2 w; e_mh := w_mh w; e_fuel := w_fuel w
|}.

(** The [i]-th batch of [B] consecutive examples. *)
Definition batch (B i : Z) (exs : list Example_) : list Example_ :=
  take (Z.to_nat B) (drop (Z.to_nat (i * B)) exs).

(** Whether something done every [every] records is due after iteration [t] (0-based). *)
Definition due (every B t : Z) : bool := (t + 1) mod (every / B) =? 0.
Definition sampled (mode : LayerModeType) : bool :=
  match mode with LayerMode1 | LayerMode4 => true | _ => false end.

(** One training epoch over the examples [exs]: batch [i] is iteration [e * numBatches + i]; before
    it the network is evaluated on 20 batches when the iteration is a multiple of Stepsize (but never
    before the first batch of an epoch); then ProcessInput gets the batch. *)
Definition spec_epoch (w : world) (cfg : Configuration) (cowId numBatches : Z) (net : Network) (e : Z)
    (exs : list Example_) : M (list logline) :=
  '(_, log) ← mfold (fun '(net, log) i =>
      let t := e * numBatches + i in
      out ← (if (0 <? i) && (t mod c_Stepsize cfg =? 0) then evaluateSvm w cfg cowId 20 net else mret []);
      '(_, net) ← network_ProcessInput (settings w cfg) cowId net (batch (c_BatchSize cfg) i exs) t
                    (sampled (c_LayerMode cfg) && due (c_Rehash cfg) (c_BatchSize cfg) t)
                    (sampled (c_LayerMode cfg) && due (c_Rebuild cfg) (c_BatchSize cfg) t);
      mret (net, log ++ out)) (net, []) (seqZ 0 numBatches);
  mret log.

(** Evaluation over the examples [exs]: PredictClass on consecutive batches; after each batch the
    accuracy so far is logged, at the end the overall accuracy. *)
Definition spec_evaluate (w : world) (cfg : Configuration) (cowId numBatchesTest : Z) (net : Network)
    (exs : list Example_) : M (list logline) :=
  let B := c_BatchSize cfg in
  '(_, tot, log) ← mfold (fun '(net, tot, log) i =>
      '(correct, net) ← network_PredictClass (settings w cfg) cowId net (batch B i exs);
      mret (net, tot + correct, log ++ [LogIter i (fdiv (f_of_Z (tot + correct)) (fmul (f_of_Z B) (fadd (f_of_Z i) fone)))]))
    (net, 0, []) (seqZ 0 numBatchesTest);
  mret (log ++ [LogOverall (fdiv (f_of_Z tot) (fmul (f_of_Z numBatchesTest) (f_of_Z B)))]).

(** A configuration for which the schedule is defined and no counter overflows. *)
Record schedule_ok (cfg : Configuration) (numBatches e : Z) : Prop := mkSchedOk {
  so_batch : 0 < c_BatchSize cfg;
  so_step : 0 < c_Stepsize cfg;
  so_rehash : sampled (c_LayerMode cfg) = true -> c_BatchSize cfg <= c_Rehash cfg <= maxInt64;
  so_rebuild : sampled (c_LayerMode cfg) = true -> c_BatchSize cfg <= c_Rebuild cfg <= maxInt64;
  so_iter : 0 <= e /\ e * numBatches + numBatches <= maxInt64
}.

(** PredictClass applied to one batch after the other, with the counts it returns. *)
Inductive predicts (E : env) (cowId : Z) : Network -> mem -> list (list Example_) -> list Z -> mem -> Prop :=
  | predicts_nil net m : predicts E cowId net m [] [] m
  | predicts_cons net m b bs k ks net1 m1 m2 :
      network_PredictClass E cowId net b m = Ok ((k, net1), m1) ->
      predicts E cowId net1 m1 bs ks m2 ->
      predicts E cowId net m (b :: bs) (k :: ks) m2.
Definition sumZ (l : list Z) : Z := foldr Z.add 0 l.
