(** Model of goslide.go and of the Configuration type.  logger.Fatal ends the process, so it is a
    panic here: PMsg 20 "cannot open the file", PMsg 21 "scanner error".  Wall-clock times,
    profiling and log lines that only repeat inputs are not modelled. *)
From Verif.Model Require Export Network.

(** type Configuration — configuration/configuration.go:14-41, without the fields no code reads
    (Weights, SavedWeights, LogFile) and the profiling switches. *)
Record Configuration := mkCfg {
  c_RangePow : list Z; c_K : list Z; c_L : list Z; c_Sparsity : list float64;
  c_BatchSize : Z; c_Rehash : Z; c_Rebuild : Z; c_InputDim : Z; c_TotRecords : Z; c_TotRecordsTest : Z;
  c_LearningRate : float64; c_Epoch : Z; c_Stepsize : Z; c_SizesOfLayers : list Z; c_NumLayer : Z;
  c_TrainData : bytes; c_TestData : bytes;
  c_UseAdam : bool; c_HashFunction : HashFunctionType; c_LoadWeight : bool; c_LayerMode : LayerModeType
}.

(** Default — configuration/configuration.go:61-90 *)
Definition cfg_Default : Configuration :=
  mkCfg [] [] [] [] 1000 1000 1000 784 60000 10000 (fdiv fone (f_of_Z 10000)) 5 20 [] 3 [] []
    true DensifiedWtaHashFunction false LayerMode4.

(** What is outside the modelled code: the file system, strconv.ParseFloat, the math functions and
    maphash.  [w_fuel] is [e_fuel]. *)
Record world := mkWorld {
  w_open : bytes -> option reader; w_parseFloat : bytes -> option float64;
  w_exp : float64 -> float64; w_pow : float64 -> float64 -> float64; w_log2 : float64 -> float64;
  w_mh : nat -> Z -> Z; w_fuel : nat
}.
(** configuration.Global as the other packages see it *)
Definition env_of (w : world) (c : Configuration) : env :=
  mkEnv (c_UseAdam c) (c_LoadWeight c) (c_HashFunction c) (c_LayerMode c)
    (w_exp w) (w_pow w) (w_log2 w) (w_mh w) (w_fuel w).

(** Lines written to the log: the accuracies *)
Inductive logline :=
  | LogIter (i : Z) (acc : float64)      (* goslide.go:209-211 *)
  | LogOverall (acc : float64).          (* goslide.go:214-216, repeated 218-219 *)

(** Go / and % on ints *)
Definition go_div (a b : Z) : res Z := if b =? 0 then Panic PDivZero else Ok (wrap64 (Z.quot a b)).
Definition go_rem (a b : Z) : res Z := if b =? 0 then Panic PDivZero else Ok (Z.rem a b).

(** makeLayersTypes — goslide.go:103-110 *)
Definition makeLayersTypes (numLayers : Z) : res (list NodeType) :=
  ts ← make_slice ReLU numLayers;
  ts ← foldM (fun ts i => sset ts i ReLU) ts (seqZ 0 (numLayers - 1));
  sset ts (numLayers - 1) Softmax.

(** os.Open, xcrepo.NewScanner and the error checks — goslide.go:115-124, 171-180 *)
Definition open_scanner (w : world) (name : bytes) : res Scanner :=
  match w_open w name with
  | None => Panic (PMsg 20)
  | Some r =>
      s ← x_NewScanner r;
      match x_Err s with Some _ => Panic (PMsg 21) | None => Ok s end
  end.

(** for count := 0; count < BatchSize && scanner.Scan(); count++ { append } — goslide.go:134-136,
    188-193; [n] is BatchSize - count. *)
Fixpoint read_batch (pf : bytes -> option float64) (n : nat) (s : Scanner) : res (list Example_ * Scanner) :=
  match n with
  | O => Ok ([], s)
  | S n' =>
      '(ok, s) ← x_Scan pf s;
      if negb ok then Ok ([], s)
      else '(exs, s') ← read_batch pf n' s; Ok (x_example s :: exs, s')
  end.

(** float64(totCorrect)/(float64(a)*float64(b)) *)
Definition accuracy (totCorrect : Z) (denom : float64) : float64 := fdiv (f_of_Z totCorrect) denom.

(** One batch of evaluateSvm — goslide.go:184-212 *)
Definition evaluate_batch (w : world) (cfg : Configuration) (cowId : Z)
    (st : Scanner * Network * Z * list logline) (i : Z) : M (Scanner * Network * Z * list logline) :=
  let '(s, net, totCorrect, log) := st in
  '(examples, s) ← lift (read_batch (w_parseFloat w) (Z.to_nat (c_BatchSize cfg)) s);
  _ ← lift (match x_Err s with Some _ => Panic (PMsg 21) | None => Ok tt end);
  '(correct, net) ← network_PredictClass (env_of w cfg) cowId net examples;
  let totCorrect := totCorrect + correct in
  mret (s, net, totCorrect,
        log ++ [LogIter i (accuracy totCorrect (fmul (f_of_Z (c_BatchSize cfg)) (fadd (f_of_Z i) fone)))]).

(** evaluateSvm — goslide.go:166-220 *)
Definition evaluateSvm (w : world) (cfg : Configuration) (cowId numBatchesTest : Z) (net : Network) : M (list logline) :=
  s ← lift (open_scanner w (c_TestData cfg));
  _ ← lift (make_slice tt (c_BatchSize cfg));
  '(_, _, totCorrect, log) ← mfold (evaluate_batch w cfg cowId) (s, net, 0, []) (seqZ 0 numBatchesTest);
  mret (log ++ [LogOverall (accuracy totCorrect (fmul (f_of_Z numBatchesTest) (f_of_Z (c_BatchSize cfg))))]).

(** The rehash and rebuild flags of a batch — goslide.go:142-153; [iter] is epoch*numBatches+i *)
Definition schedule (cfg : Configuration) (iter : Z) : res (bool * bool) :=
  match c_LayerMode cfg with
  | LayerMode1 | LayerMode4 =>
      q ← go_div (c_Rehash cfg) (c_BatchSize cfg);
      r ← go_rem iter q;
      q' ← go_div (c_Rebuild cfg) (c_BatchSize cfg);
      r' ← go_rem iter q';
      Ok (r =? q - 1, r' =? q' - 1)
  | _ => Ok (false, false)
  end.

(** One batch of trainSvmEpoch — goslide.go:128-163 *)
Definition train_batch (w : world) (cfg : Configuration) (cowId numBatches epoch : Z)
    (st : Scanner * Network * list logline) (i : Z) : M (Scanner * Network * list logline) :=
  let '(s, net, log) := st in
  let iter := wrap64 (epoch * numBatches + i) in
  ev ← lift (if 0 <? i then r ← go_rem iter (c_Stepsize cfg); Ok (r =? 0) else Ok false);
  out ← (if ev : bool then evaluateSvm w cfg cowId 20 net else mret []);
  '(examples, s) ← lift (read_batch (w_parseFloat w) (Z.to_nat (c_BatchSize cfg)) s);
  _ ← lift (match x_Err s with Some _ => Panic (PMsg 21) | None => Ok tt end);
  '(rehash, rebuild) ← lift (schedule cfg iter);
  '(_, net) ← network_ProcessInput (env_of w cfg) cowId net examples iter rehash rebuild;
  mret (s, net, log ++ out).

(** trainSvmEpoch — goslide.go:112-164 *)
Definition trainSvmEpoch (w : world) (cfg : Configuration) (cowId numBatches : Z) (net : Network) (epoch : Z)
    : M (list logline) :=
  s ← lift (open_scanner w (c_TrainData cfg));
  _ ← lift (make_slice tt (c_BatchSize cfg));
  '(_, _, log) ← mfold (train_batch w cfg cowId numBatches epoch) (s, net, []) (seqZ 0 numBatches);
  mret log.

(** main — goslide.go:24-101, after the configuration has been read *)
Definition main (w : world) (cfg : Configuration) : M (list logline) :=
  let cowId := 0 in
  numBatches ← lift (go_div (c_TotRecords cfg) (c_BatchSize cfg));
  numBatchesTest ← lift (go_div (c_TotRecordsTest cfg) (c_BatchSize cfg));
  types ← lift (makeLayersTypes (c_NumLayer cfg));
  net ← network_New (env_of w cfg) cowId (c_NumLayer cfg) (c_SizesOfLayers cfg) types (c_BatchSize cfg)
          (c_LearningRate cfg) (c_InputDim cfg) (c_K cfg) (c_L cfg) (c_RangePow cfg) (c_Sparsity cfg);
  mfold (fun log e =>
      l1 ← trainSvmEpoch w cfg cowId numBatches net e;
      l2 ← evaluateSvm w cfg cowId (if e =? c_Epoch cfg - 1 then numBatchesTest else 50) net;
      mret (log ++ l1 ++ l2)) [] (seqZ 0 (c_Epoch cfg)).
