(** Property C85: a small enough training step lowers the loss (packages network, layer and node). *)
From Coq Require Import Reals Lra.
From Verif.Spec Require Import LayerSpec TrainSpec BatchSpec.
From Verif.Proofs Require Import NetCalls.
From Verif.Properties Require Import NetProps BatchProps GradProps.
From Verif.Spec Require Import GradSpec DescentSpec.
From Verif.Proofs Require Import GradReal DescentProofs DescentSteps DescentBad DescentCode.
Local Open Scope Z_scope.

(** * The steps of the code *)
(** Without Adam, training on one example moves weights and biases by [stepped] and [bias_step], along the errors of
    the passes of [Spec/GradSpec.v]. *)
Theorem C85_code : forall E c num sizes types batch lr inputDim k l rp sparsity m n m' os n' m'' ex iter rehash rebuild ins n'' m3,
  e_LoadWeight E = false -> e_UseAdam E = false -> dims_ok E num sizes batch inputDim -> usual_types num types ->
  network_New E c num sizes types batch lr inputDim k l rp sparsity m = Ok (n, m') ->
  call_ops E c n os m' = Ok (n', m'') ->
  network_ProcessInput E c n [ex] iter rehash rebuild m'' = Ok ((ins, n''), m3) ->
  exists nv nv' p, live E m'' c n nv /\ live E m3 c n nv' /\ generic_pass E batch (nv_layers nv) ex p /\
    forall j lv lv' i v v', nv_layers nv !! j = Some lv -> nv_layers nv' !! j = Some lv' ->
      lv_nodes lv !! i = Some v -> lv_nodes lv' !! i = Some v' ->
      (v_w v', v_bias v') =
        match error_of p j i with
        | Some d => (stepped (floats E) lr d (map unpair (inputs_of p j)) (v_w v), bias_step (floats E) (bool_decide (j = 0%nat)) lr d (v_bias v))
        | None => (v_w v, v_bias v) end.
Proof. exact descent_sgd. Qed.
Print Assumptions C85_code.
(** With Adam, the first training call of a new network moves them by Adam's rule from moments that are 0. *)
Theorem C85_code_adam : forall E c num sizes types batch lr inputDim k l rp sparsity m n m' exs iter rehash rebuild ins n'' m3,
  e_LoadWeight E = false -> e_UseAdam E = true -> dims_ok E num sizes batch inputDim -> usual_types num types ->
  network_New E c num sizes types batch lr inputDim k l rp sparsity m = Ok (n, m') ->
  network_ProcessInput E c n exs iter rehash rebuild m' = Ok ((ins, n''), m3) ->
  exists nv nv' ps, live E m' c n nv /\ live E m3 c n nv' /\ Forall2 (generic_pass E batch (nv_layers nv)) exs ps /\
    forall j lv lv' i v v', nv_layers nv !! j = Some lv -> nv_layers nv' !! j = Some lv' ->
      lv_nodes lv !! i = Some v -> lv_nodes lv' !! i = Some v' ->
      let first g x := adam_par (learning_rate E lr iter) (adam_mom g fzero) (adam_vel g fzero) x in
      v_w v' = zip_with first (weight_gradient ps j i (replicate (length (v_w v)) fzero)) (v_w v) /\
      v_bias v' = first (bias_gradient ps j i fzero) (v_bias v).
Proof. exact descent_adam. Qed.
Print Assumptions C85_code_adam.

(** * The same steps over the reals *)
(** Moving every weight and bias against its derivative, each at a positive rate of its own, lowers the loss on the
    example if the step is small enough and some active output is not a label. *)
Theorem C85_descent : forall lab feats net rate path k, labels_active lab net -> off_kink net feats ->
  (forall j a q, 0 < rate j a q)%R -> downhill lab feats net rate path ->
  k ∈ map (u_id _) (List.last net []) -> k ∉ lab ->
  exists r, (0 < r)%R /\ forall lr, (0 < lr < r)%R -> (loss lab feats (path lr) < loss lab feats net)%R.
Proof. exact (fun lab feats net rate path k H1 H2 H3 H4 => descent lab feats net rate path H1 H2 H3 H4 k). Qed.
Print Assumptions C85_descent.
(** Adam's first step is of that kind... *)
Theorem C85_adam : forall lab feats net, labels_active lab net -> off_kink net feats ->
  exists rate, (forall j a q, 0 < rate j a q)%R /\ downhill lab feats net rate (adam_net lab feats net).
Proof. exact adam_downhill. Qed.
Print Assumptions C85_adam.
(** ... and so is the plain step, if the first layer moves its biases as the other layers do. *)
Theorem C85_sgd : forall lab feats net, labels_active lab net -> off_kink net feats ->
  downhill lab feats net (fun _ _ _ => 1%R) (sgd_net lab feats net).
Proof. exact sgd_downhill. Qed.
Print Assumptions C85_sgd.
(** The code's plain step is not: its first layer adds the rate and the error where it should multiply them, so however
    small the rate is, the loss can rise by 100. *)
Theorem C85_code_far : exists lab feats net k, labels_active lab net /\ off_kink net feats /\ k ∈ map (u_id _) (List.last net []) /\ k ∉ lab /\
  forall lr, (0 < lr < / 100)%R -> (loss lab feats net + 100 < loss lab feats (code_net lab feats net lr))%R.
Proof. exact code_far. Qed.
Print Assumptions C85_code_far.
Theorem C85_code_refuted : ~ forall lab feats net k, labels_active lab net -> off_kink net feats ->
  k ∈ map (u_id _) (List.last net []) -> k ∉ lab ->
  exists r, (0 < r)%R /\ forall lr, (0 < lr < r)%R -> (loss lab feats (code_net lab feats net lr) < loss lab feats net)%R.
Proof. exact code_not_descent. Qed.
Print Assumptions C85_code_refuted.

(** * Examples *)
(** The network of C77, with label 1; class 0 is not a label. *)
Example C85_descent_ex : exists r, (0 < r)%R /\ forall lr, (0 < lr < r)%R ->
  (loss [1%Z] [(0%Z, 1%R)] (adam_net [1%Z] [(0%Z, 1%R)] real_net lr) < loss [1%Z] [(0%Z, 1%R)] real_net)%R.
Proof.
  destruct C77_gradient_ex as [H1 H2]. destruct (C85_adam _ _ _ H1 H2) as (rate & HR & HD).
  apply (C85_descent _ _ _ rate _ 0 H1 H2 HR HD); [left|rewrite elem_of_list_singleton; lia].
Qed.
Example C85_sgd_ex : exists r, (0 < r)%R /\ forall lr, (0 < lr < r)%R ->
  (loss [1%Z] [(0%Z, 1%R)] (sgd_net [1%Z] [(0%Z, 1%R)] real_net lr) < loss [1%Z] [(0%Z, 1%R)] real_net)%R.
Proof.
  destruct C77_gradient_ex as [H1 H2]. apply (C85_descent _ _ _ (fun _ _ _ => 1%R) _ 0 H1 H2); [intros; lra|by apply C85_sgd|left|rewrite elem_of_list_singleton; lia].
Qed.
(** The hypotheses of [C85_code] are those of [C77_code_sgd], see [C77_code_ex].  With Adam, on the demonstration network: *)
Notation adam_made :=
  (network_New netE 1 2 [3; 2] [ReLU; Softmax] 2 net_half 4 [1; 1] [2; 2] [2; 2] [fone; net_half; fone; fone] net0).
Definition first_runs (made : res (Network * mem)) : bool :=
  match made with
  | Ok (n, m) => fine (network_ProcessInput netE 1 n net_exs 0 false false m)
  | Panic _ => false
  end.
Lemma first_runs_spec made : first_runs made = true -> exists n m r m2, made = Ok (n, m) /\ network_ProcessInput netE 1 n net_exs 0 false false m = Ok (r, m2).
Proof.
  unfold first_runs, fine. destruct made as [[n m]|]; [|discriminate]. intros H. exists n, m.
  destruct (network_ProcessInput _ _ _ _ _ _ _ _) as [[r m2]|] eqn:Q; [|discriminate]. by exists r, m2.
Qed.
Example C85_adam_ex : e_UseAdam netE = true /\ usual_types 2 [ReLU; Softmax] /\ dims_ok netE 2 [3; 2] 2 4 /\ exists n m r m2,
  adam_made = Ok (n, m) /\ network_ProcessInput netE 1 n net_exs 0 false false m = Ok (r, m2).
Proof. split; [reflexivity|]. split; [exact two_types|]. split; [exact net_dims|]. apply (first_runs_spec adam_made). vm_compute. reflexivity. Qed.
