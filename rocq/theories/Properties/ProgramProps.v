(** Properties C67-C68 and C62 for the whole program (goslide.go). *)
From Verif.Spec Require Import LayerSpec ProgramSpec.
From Verif.Proofs Require Import NetSafe ProgramProofs.
From Verif.Properties Require Import XcProps MainProps.
From Coq Require Import Lia.
Local Open Scope Z_scope.

(** * C67 The program is New followed by a fixed list of calls on that one network *)
(** The training epochs, though they get the network by pointer and their result is dropped, act on the network that
    is evaluated afterwards: the memory at the end is that of New followed by [program_calls], and the program fails
    exactly when these calls fail, in the same way. *)
Theorem C67_program : forall w cfg train test m,
  program_ok cfg -> dims_ok (settings w cfg) (c_NumLayer cfg) (c_SizesOfLayers cfg) (c_BatchSize cfg) (c_InputDim cfg) ->
  file_delivers w (c_TrainData cfg) train -> file_delivers w (c_TestData cfg) test ->
  end_of (main w cfg m) =
  end_of ((net ← network_New (settings w cfg) 0 (c_NumLayer cfg) (c_SizesOfLayers cfg) (program_types cfg) (c_BatchSize cfg)
                  (c_LearningRate cfg) (c_InputDim cfg) (c_K cfg) (c_L cfg) (c_RangePow cfg) (c_Sparsity cfg);
           call_ops (settings w cfg) 0 net (program_calls cfg train test)) m).
Proof. exact program_trace. Qed.
Print Assumptions C67_program.

Lemma main_prog_ok : program_ok (main_cfg 1).
Proof. constructor; cbn; unfold maxInt64; try done; lia. Qed.
Lemma main_well : well_formed (settings main_world (main_cfg 1)) 2 [3; 3] [ReLU; Softmax] 1 4 [1; 1] [3; 3] [2; 2] [fone; main_half; fone; main_half].
Proof.
  split; [lia|]. split; [lia|]. split; [lia|]. intros j Hj.
  destruct j as [|[|j]]; [..|lia]; do 8 eexists; repeat (split; [reflexivity|]); (split; [lia|]); (split; [lia|]); (split; [lia|]); (split; [discriminate|]);
    (split; [first [reflexivity|intros ?; lia]|]); (split; [split; [lia|]; split; [lia|]; cbn; lia|]); split; right; cbn; lia.
Qed.
Example C67_ex :
  program_ok (main_cfg 1) /\ dims_ok (settings main_world (main_cfg 1)) 2 [3; 3] 1 4 /\ file_delivers main_world [] main_exs /\
  map (fun o => match o with OpTrain exs t rehash rebuild => (Z.of_nat (length exs), t, rehash, rebuild) | OpPredict exs => (-1, Z.of_nat (length exs), false, false) end)
    (program_calls (mkCfg [2; 2] [1; 1] [3; 3] [fone; main_half; fone; main_half] 1 1 2 4 2 2
      main_half 1 5 [3; 3] 2 [] [] true SparseRandomProjectionHashFunction false LayerMode4) main_exs main_exs) =
    [(1, 0, true, false); (1, 1, true, true); (-1, 1, false, false); (-1, 1, false, false)] /\
  length (program_calls (main_cfg 1) main_exs main_exs) = (2 * (20 + 2) + 50 + 2)%nat.
Proof.
  split; [exact main_prog_ok|]. split; [exact (well_dims _ _ _ _ _ _ _ _ _ _ _ main_well)|]. split; [exact main_delivers|].
  split; vm_compute; reflexivity.
Qed.

(** * C68 The program never fails on a well-formed configuration and fitting data *)
(** [well_formed] asks for sparse random projection or densified WTA hashing with indices that fit the tables, and for
    a mode that can choose the active nodes; C58 refutes the other cases. *)
Theorem C68_program : forall w cfg train test m,
  program_ok cfg ->
  well_formed (settings w cfg) (c_NumLayer cfg) (c_SizesOfLayers cfg) (program_types cfg) (c_BatchSize cfg) (c_InputDim cfg)
    (c_K cfg) (c_L cfg) (c_RangePow cfg) (c_Sparsity cfg) ->
  file_delivers w (c_TrainData cfg) train -> file_delivers w (c_TestData cfg) test ->
  Forall (fun ex => features_fit (c_InputDim cfg) ex /\ labels_fit (c_NumLayer cfg) (c_SizesOfLayers cfg) (program_types cfg) ex) train ->
  Forall (features_fit (c_InputDim cfg)) test ->
  exists log m', main w cfg m = Ok (log, m').
Proof. exact program_runs. Qed.
Print Assumptions C68_program.

Example C68_ex :
  Forall (fun ex => features_fit 4 ex /\ labels_fit 2 [3; 3] [ReLU; Softmax] ex) main_exs /\
  exists log m', main main_world (main_cfg 1) main_mem = Ok (log, m').
Proof.
  assert (HX : Forall (fun ex => features_fit 4 ex /\ labels_fit 2 [3; 3] [ReLU; Softmax] ex) main_exs).
  { assert (G : forall ps ls, Forall (fun p => 0 <= iv_index p < 4) ps -> Z.of_nat (length ps) <= 4 -> NoDup ls -> Forall (fun x => 0 <= x < 3) ls ->
      features_fit 4 (example ls ps) /\ labels_fit 2 [3; 3] [ReLU; Softmax] (example ls ps)).
    { intros ps ls H1 H2 H3 H4. split; [done|]. split; [done|]. intros [|[|j]] size Hj Ht Hs; [discriminate Ht| |lia]. injection Hs as <-. exact H4. }
    apply Forall_cons. split; [|apply Forall_singleton].
    - apply G; [repeat constructor; cbn; lia|cbn; lia|by apply (bool_decide_unpack _)|repeat constructor; lia].
    - apply G; [repeat constructor; cbn; lia|cbn; lia|apply NoDup_singleton|apply Forall_singleton; lia]. }
  split; [exact HX|].
  apply (C68_program main_world (main_cfg 1) main_exs main_exs main_mem main_prog_ok main_well main_delivers main_delivers HX).
  eapply Forall_impl; [exact HX|]. by intros ? [? _].
Qed.

(** Mode 2 too, with sparse softmax layers, when the labels fit in the active lists and the random numbers leave no
    node out. *)
Theorem C68_sampling : forall w cfg train test m,
  program_ok cfg ->
  well_formed_covered (rstream (m_rng m)) (settings w cfg) (c_NumLayer cfg) (c_SizesOfLayers cfg) (program_types cfg) (c_BatchSize cfg) (c_InputDim cfg)
    (c_K cfg) (c_L cfg) (c_RangePow cfg) (c_Sparsity cfg) ->
  file_delivers w (c_TrainData cfg) train -> file_delivers w (c_TestData cfg) test ->
  Forall (fun ex => features_fit (c_InputDim cfg) ex /\ labels_fit (c_NumLayer cfg) (c_SizesOfLayers cfg) (program_types cfg) ex) train ->
  Forall (labels_room (c_NumLayer cfg) (c_SizesOfLayers cfg) (program_types cfg) (c_Sparsity cfg)) train ->
  Forall (features_fit (c_InputDim cfg)) test ->
  exists log m', main w cfg m = Ok (log, m').
Proof. exact program_samples. Qed.
Print Assumptions C68_sampling.

Definition three_quarters : float64 := fdiv (f_of_Z 3) (f_of_Z 4).
Definition samp_cfg : Configuration :=
  mkCfg [2; 2] [1; 1] [3; 3] [fone; three_quarters; fone; main_half] 1 1 2 4 2 2
    main_half 2 1 [3; 3] 2 [] [] true SparseRandomProjectionHashFunction false LayerMode2.
Example C68_sampling_ex :
  program_ok samp_cfg /\
  well_formed_covered (rstream (m_rng main_mem)) (settings main_world samp_cfg) 2 [3; 3] [ReLU; Softmax] 1 4 [1; 1] [3; 3] [2; 2]
    [fone; three_quarters; fone; main_half] /\
  Forall (labels_room 2 [3; 3] [ReLU; Softmax] [fone; three_quarters; fone; main_half]) main_exs.
Proof.
  split; [constructor; cbn; unfold maxInt64; try done; lia|].
  assert (HC : covers (rstream (m_rng main_mem)) 3 3).
  { intros p v Hv. change (exists q, (p <= q < p + 3)%nat /\ (Z.of_nat q * 7919) mod 3 = v).
    destruct (decide ((Z.of_nat p * 7919) mod 3 = v)) as [Hp|Hp]; [exists p; split; [lia|done]|].
    destruct (decide ((Z.of_nat (S p) * 7919) mod 3 = v)) as [Hq|Hq]; [exists (S p); split; [lia|done]|]. exists (S (S p)). split; [lia|]. lia. }
  split.
  - split; [lia|]. split; [lia|]. split; [lia|]. intros j Hj.
    destruct j as [|[|j]]; [..|lia]; do 8 eexists; repeat (split; [reflexivity|]); (split; [lia|]); (split; [lia|]); (split; [lia|]); (split; [discriminate|]);
      (split; [first [reflexivity|intros ?; lia]|]); (split; [split; [lia|]; split; [lia|]; cbn; lia|]).
    + split; left; left; reflexivity.
    + split; right; (split; [reflexivity|]); (split; [lia|]); (split; [vm_compute; split; discriminate|]); exists 3%nat; (split; [exact HC|]); cbn; lia.
  - apply Forall_cons. split; [|apply Forall_singleton].
    all: intros [|[|j]] size sp Hj Ht Hs Hsp Hd; [discriminate Ht| |lia]; injection Hs as <-; injection Hsp as <-; vm_compute; discriminate.
Qed.

(** * C62 Every accuracy the program logs lies between 0 and 1 *)
Theorem C62_program : forall w cfg train test m log m',
  program_ok cfg -> file_delivers w (c_TrainData cfg) train -> file_delivers w (c_TestData cfg) test ->
  c_BatchSize cfg <= c_TotRecordsTest cfg <= 2 ^ 53 -> 50 * c_BatchSize cfg <= 2 ^ 53 ->
  main w cfg m = Ok (log, m') -> Forall (fun l => fraction (accuracy l)) log.
Proof. exact program_fractions. Qed.
Print Assumptions C62_program.

(** With fewer test records than a batch the last evaluation divides zero by zero. *)
Theorem C62_no_batches : forall w cfg cowId net test m log m',
  0 <= c_BatchSize cfg -> file_delivers w (c_TestData cfg) test -> evaluateSvm w cfg cowId 0 net m = Ok (log, m') ->
  exists a, log = [LogOverall a] /\ is_nan a = true.
Proof. exact evaluate_empty. Qed.
Print Assumptions C62_no_batches.

Example C62_program_ex :
  c_BatchSize (main_cfg 1) <= c_TotRecordsTest (main_cfg 1) <= 2 ^ 53 /\ 50 * c_BatchSize (main_cfg 1) <= 2 ^ 53 /\
  match main main_world (mkCfg [2; 2] [1; 1] [3; 3] [fone; main_half; fone; main_half] 1 1 2 4 2 0
      main_half 1 5 [3; 3] 2 [] [] true SparseRandomProjectionHashFunction false LayerMode4) main_mem with
  | Ok (log, _) => log = [LogOverall fnan]
  | Panic _ => False
  end.
Proof. split; [cbn; lia|]. split; [cbn; lia|]. vm_compute. reflexivity. Qed.
