(** Properties C69-C71: what a training call computes, and what it leaves alone (package network). *)
From Verif.Spec Require Import LayerSpec BatchSpec.
From Verif.Proofs Require Import NetCalls BatchProofs AdamProofs.
From Verif.Properties Require Import NetProps.
Local Open Scope Z_scope.

(** * C69 The second moments are never negative and Adam never divides by zero *)
Theorem C69_moments : forall E c num sizes types batch lr inputDim k l rp sparsity m n m' os n' m'',
  e_LoadWeight E = false -> dims_ok E num sizes batch inputDim ->
  network_New E c num sizes types batch lr inputDim k l rp sparsity m = Ok (n, m') ->
  call_ops E c n os m' = Ok (n', m'') ->
  exists nv, live E m'' c n nv /\
    forall j lv i v, nv_layers nv !! j = Some lv -> lv_nodes lv !! i = Some v ->
      Forall not_negative (second_moments v) /\
      Forall (fun x => Float64.is_nan x = false -> fltb fzero (adam_divisor x) = true) (second_moments v).
Proof. exact moments_calls. Qed.
Print Assumptions C69_moments.

(** * C70 A training call with Adam is one Adam step with the gradient of the batch at the starting parameters *)
(** The passes of all examples are computed with the parameters the network had before the call (its fallback orders
    possibly permuted); their gradients are added up in the order of the examples. *)
Theorem C70_adam : forall E c num sizes types batch lr inputDim k l rp sparsity m n m' os n' m'' exs iter rehash rebuild ins n'' m3,
  e_LoadWeight E = false -> e_UseAdam E = true -> dims_ok E num sizes batch inputDim ->
  network_New E c num sizes types batch lr inputDim k l rp sparsity m = Ok (n, m') ->
  call_ops E c n os m' = Ok (n', m'') ->
  network_ProcessInput E c n exs iter rehash rebuild m'' = Ok ((ins, n''), m3) ->
  exists nv nv' lvs ps, live E m'' c n nv /\ live E m3 c n nv' /\ reshuffled iter (nv_layers nv) lvs /\
    Forall2 (pass_of E batch lvs sparsity) exs ps /\
    forall j lv lv' i v v', nv_layers nv !! j = Some lv -> nv_layers nv' !! j = Some lv' ->
      lv_nodes lv !! i = Some v -> lv_nodes lv' !! i = Some v' ->
      identity v' = identity v /\
      adam_step (learning_rate E lr iter) (weight_gradient ps j i (replicate (length (v_w v)) fzero)) (bias_gradient ps j i fzero) v v'.
Proof. exact batch_training. Qed.
Print Assumptions C70_adam.
(** Without Adam each pass uses the weights left by the passes before it, but the biases from before the call. *)
Theorem C70_sgd : forall E c num sizes types batch lr inputDim k l rp sparsity m n m' os n' m'' exs iter rehash rebuild ins n'' m3,
  e_LoadWeight E = false -> e_UseAdam E = false -> dims_ok E num sizes batch inputDim ->
  network_New E c num sizes types batch lr inputDim k l rp sparsity m = Ok (n, m') ->
  call_ops E c n os m' = Ok (n', m'') ->
  network_ProcessInput E c n exs iter rehash rebuild m'' = Ok ((ins, n''), m3) ->
  exists nv nv' lvs ps, live E m'' c n nv /\ live E m3 c n nv' /\ reshuffled iter (nv_layers nv) lvs /\
    sgd_passes E batch sparsity (learning_rate E lr iter) lvs exs ps /\
    forall j lv lv' i v v', nv_layers nv !! j = Some lv -> nv_layers nv' !! j = Some lv' ->
      lv_nodes lv !! i = Some v -> lv_nodes lv' !! i = Some v' ->
      identity v' = identity v /\ v_w v' = sgd_weights (learning_rate E lr iter) ps j i (v_w v) /\ v_bias v' = sgd_bias (learning_rate E lr iter) ps j i (v_bias v).
Proof. exact sgd_training. Qed.
Print Assumptions C70_sgd.

(** * C71 Training moves only what was active *)
(** After any calls, a weight whose node and input were never active together is still the one New drew (with Adam up
    to the sign of a zero). *)
Theorem C71_untouched : forall E c num sizes types batch lr inputDim k l rp sparsity m n m' os n' m'',
  e_LoadWeight E = false -> dims_ok E num sizes batch inputDim ->
  (e_UseAdam E = true -> Forall (rate_ok E lr) os) ->
  network_New E c num sizes types batch lr inputDim k l rp sparsity m = Ok (n, m') ->
  call_ops E c n os m' = Ok (n', m'') ->
  exists nv nv' pss, live E m' c n nv /\ live E m'' c n nv' /\ history E batch sparsity lr nv os pss nv' /\
    forall j lv lv' i v v' q w, nv_layers nv !! j = Some lv -> nv_layers nv' !! j = Some lv' ->
      lv_nodes lv !! i = Some v -> lv_nodes lv' !! i = Some v' -> v_w v !! q = Some w -> ~ BatchSpec.touched (concat pss) j i q ->
      exists w', v_w v' !! q = Some w' /\ if e_UseAdam E then same_number w w' else w' = w.
Proof. exact untouched_kept. Qed.
Print Assumptions C71_untouched.
(** In particular the weights of a feature that no training example has. *)
Theorem C71_unseen_feature : forall E c num sizes types batch lr inputDim k l rp sparsity m n m' os n' m'' (q : nat),
  e_LoadWeight E = false -> dims_ok E num sizes batch inputDim ->
  (e_UseAdam E = true -> Forall (rate_ok E lr) os) ->
  Forall (unseen_in q) os ->
  network_New E c num sizes types batch lr inputDim k l rp sparsity m = Ok (n, m') ->
  call_ops E c n os m' = Ok (n', m'') ->
  exists nv nv', live E m' c n nv /\ live E m'' c n nv' /\
    forall lv lv' i v v' w, nv_layers nv !! 0%nat = Some lv -> nv_layers nv' !! 0%nat = Some lv' ->
      lv_nodes lv !! i = Some v -> lv_nodes lv' !! i = Some v' -> v_w v !! q = Some w ->
      exists w', v_w v' !! q = Some w' /\ if e_UseAdam E then same_number w w' else w' = w.
Proof. exact unseen_feature. Qed.
Print Assumptions C71_unseen_feature.

(** The demonstration network with and without Adam: feature 1 occurs in no example. *)
Definition sgdE : env :=
  mkEnv false false SparseRandomProjectionHashFunction LayerMode4 (fun x => x) (fun x _ => x) (fun x => x) (fun _ x => x) 100.
Definition demo (E : env) : res (list (list float64) * list (list float64) * list (list float64)) :=
  let weights m := map (fun a => a) (m_f m) in
  match network_New E 1 2 [3; 2] [ReLU; Softmax] 2 net_half 4 [1; 1] [2; 2] [2; 2] [fone; net_half; fone; fone] net0 with
  | Ok (n, m) =>
      match call_ops E 1 n net_ops m with
      | Ok (n', m') => match network_ProcessInput E 1 n' net_exs 2 false false m' with Ok (_, m2) => Ok (weights m, weights m', weights m2) | Panic p => Panic p end
      | Panic p => Panic p
      end
  | Panic p => Panic p
  end.
Example C69_C70_C71_ex :
  fine (demo netE) = true /\ fine (demo sgdE) = true /\
  Forall (rate_ok netE net_half) net_ops /\ Forall (unseen_in 1) net_ops /\ ~ Forall (unseen_in 2) net_ops /\
  match demo netE, demo sgdE with
  | Ok (w0, w1, w2), Ok (s0, s1, s2) => w0 <> w1 /\ w1 <> w2 /\ s0 <> s1 /\ s1 <> s2
  | _, _ => False
  end.
Proof.
  split; [vm_compute; reflexivity|]. split; [vm_compute; reflexivity|]. split; [|split; [|split]].
  - assert (HR : forall t, rate_ok netE net_half (OpTrain net_exs t true true)).
    { intros t. split; vm_compute; done. }
    constructor; [apply (HR 0)|]. constructor; [done|]. constructor; [apply (HR 1)|]. constructor.
  - assert (HU : forall t a b, unseen_in 1 (OpTrain net_exs t a b)) by (intros; cbn; repeat constructor; cbn; lia).
    constructor; [apply HU|]. constructor; [done|]. constructor; [apply HU|]. constructor.
  - intros H. apply Forall_cons in H as [H _]. cbn in H. apply Forall_cons in H as [H _]. cbn in H. apply Forall_cons in H as [_ H].
    apply Forall_cons in H as [[_ H] _]. by apply H.
  - vm_compute. split; [discriminate|]. split; [discriminate|]. split; discriminate.
Qed.
