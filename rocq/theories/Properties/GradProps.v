(** Property C77: training follows the gradient of the cross-entropy (packages network and node). *)
From Coq Require Import Reals Lra.
From Verif.Spec Require Import LayerSpec TrainSpec BatchSpec.
From Verif.Proofs Require Import NetCalls.
From Verif.Properties Require Import NetProps BatchProps.
From Verif.Spec Require Import GradSpec.
From Verif.Proofs Require Import GradReal GradFloat.
Local Open Scope Z_scope.

(** * What the code computes: the passes of [Spec/GradSpec.v], over binary64 *)
(** Without Adam, training on one example: every active node's weights make the plain step along its error. *)
Theorem C77_code_sgd : forall E c num sizes types batch lr inputDim k l rp sparsity m n m' os n' m'' ex iter rehash rebuild ins n'' m3,
  e_LoadWeight E = false -> e_UseAdam E = false -> dims_ok E num sizes batch inputDim -> usual_types num types ->
  network_New E c num sizes types batch lr inputDim k l rp sparsity m = Ok (n, m') ->
  call_ops E c n os m' = Ok (n', m'') ->
  network_ProcessInput E c n [ex] iter rehash rebuild m'' = Ok ((ins, n''), m3) ->
  exists nv nv' p, live E m'' c n nv /\ live E m3 c n nv' /\ generic_pass E batch (nv_layers nv) ex p /\
    forall j lv lv' i v v', nv_layers nv !! j = Some lv -> nv_layers nv' !! j = Some lv' ->
      lv_nodes lv !! i = Some v -> lv_nodes lv' !! i = Some v' ->
      v_w v' = match error_of p j i with
               | Some d => stepped (floats E) (learning_rate E lr iter) d (map unpair (inputs_of p j)) (v_w v)
               | None => v_w v end.
Proof. exact grad_sgd. Qed.
Print Assumptions C77_code_sgd.
(** With Adam, on any batch: the gradient of the Adam step is summed up from such passes. *)
Theorem C77_code_adam : forall E c num sizes types batch lr inputDim k l rp sparsity m n m' os n' m'' exs iter rehash rebuild ins n'' m3,
  e_LoadWeight E = false -> e_UseAdam E = true -> dims_ok E num sizes batch inputDim -> usual_types num types ->
  network_New E c num sizes types batch lr inputDim k l rp sparsity m = Ok (n, m') ->
  call_ops E c n os m' = Ok (n', m'') ->
  network_ProcessInput E c n exs iter rehash rebuild m'' = Ok ((ins, n''), m3) ->
  exists nv nv' ps, live E m'' c n nv /\ live E m3 c n nv' /\ Forall2 (generic_pass E batch (nv_layers nv)) exs ps /\
    forall j lv lv' i v v', nv_layers nv !! j = Some lv -> nv_layers nv' !! j = Some lv' ->
      lv_nodes lv !! i = Some v -> lv_nodes lv' !! i = Some v' ->
      adam_step (learning_rate E lr iter) (weight_gradient ps j i (replicate (length (v_w v)) fzero)) (bias_gradient ps j i fzero) v v'.
Proof. exact grad_adam. Qed.
Print Assumptions C77_code_adam.

(** * The same passes over the reals are the gradient *)
(** For batch size 1 and without the small constant, for a network of any depth and width: the error of every active
    node is minus the derivative of the cross-entropy by its bias, and the plain step with rate [lr] subtracts from
    each of its weights [lr] times the derivative of the cross-entropy by that weight. *)
Theorem C77_gradient : forall lab net feats j l a u,
  labels_active lab net -> off_kink net feats -> net !! j = Some l -> l !! a = Some u ->
  exists cur ds d,
    forward (reals 0) net feats !! j = Some cur /\ backward (reals 0) 1 lab net feats !! j = Some ds /\ ds !! a = Some d /\
    (forall q w, u_w (reals 0) u !! q = Some w ->
       exists g, derivable_pt_lim (fun x => loss lab feats (set_weight j a q x net)) w g /\
         forall lr, stepped (reals 0) lr d cur (u_w (reals 0) u) !! q = Some (w - lr * g)%R) /\
    derivable_pt_lim (fun x => loss lab feats (set_bias j a x net)) (u_b (reals 0) u) (- d)%R.
Proof. exact gradient_real. Qed.
Print Assumptions C77_gradient.

(** The small constant [eps] changes the error of an output node by at most [eps], if some weighted sum of the output
    layer is not negative. *)
Theorem C77_constant : forall eps batch lab zs i z, (0 <= eps)%R -> 1 <= batch -> z ∈ zs -> (exists z', z' ∈ zs /\ 0 <= z')%R ->
  let sum := fold_left Rplus (exponentials (reals eps) zs) 0%R in
  let p := (i, exp (z - top (reals eps) zs)) in
  (Rabs (out_error (reals eps) batch lab sum p - out_error (reals 0) batch lab sum p) <= eps)%R.
Proof. exact eps_small. Qed.
Print Assumptions C77_constant.

(** Otherwise it may not be small: the code subtracts the greatest of 0 and the weighted sums, not the greatest sum. *)
Theorem C77_negative_refuted : ~ forall lab zs i z, z ∈ zs ->
  let eps := (/ 10000000)%R in
  let sum := fold_left Rplus (exponentials (reals eps) zs) 0%R in
  let p := (i, exp (z - top (reals eps) zs)) in
  (Rabs (out_error (reals eps) 1 lab sum p - out_error (reals 0) 1 lab sum p) <= / 2)%R.
Proof. exact negative_bad. Qed.
Print Assumptions C77_negative_refuted.

(** For larger batches the errors are not those of the mean loss: only the share is divided by the batch size, not
    the target. *)
Theorem C77_batch_refuted : ~ forall batch lab net feats, labels_active lab net -> off_kink net feats -> 1 <= batch ->
  backward (reals 0) batch lab net feats = map (map (fun d => d / IZR batch)%R) (backward (reals 0) 1 lab net feats).
Proof. exact batch_bad. Qed.
Print Assumptions C77_batch_refuted.
(** What they are the gradient of: [batch_loss], which lacks a part of the logarithm of the sum of exponentials... *)
Theorem C77_batch_gradient : forall batch lab net feats j l a u,
  labels_active lab net -> off_kink net feats -> net !! j = Some l -> l !! a = Some u ->
  exists cur ds d,
    forward (reals 0) net feats !! j = Some cur /\ backward (reals 0) batch lab net feats !! j = Some ds /\ ds !! a = Some d /\
    (forall q w, u_w (reals 0) u !! q = Some w ->
       exists g, derivable_pt_lim (fun x => batch_loss batch lab feats (set_weight j a q x net)) w g /\
         forall lr, stepped (reals 0) lr d cur (u_w (reals 0) u) !! q = Some (w - lr * g)%R) /\
    derivable_pt_lim (fun x => batch_loss batch lab feats (set_bias j a x net)) (u_b (reals 0) u) (- d)%R.
Proof. exact gradient_batch. Qed.
Print Assumptions C77_batch_gradient.
(** ... and which, unlike the cross-entropy, has no lower bound: adding to all the output biases lowers it without end. *)
Theorem C77_bounded : forall lab net feats, labels_active lab net -> (0 <= loss lab feats net)%R.
Proof. exact loss_bounded. Qed.
Print Assumptions C77_bounded.
Theorem C77_batch_unbounded : forall batch lab net feats bound, labels_active lab net -> 2 <= batch ->
  exists c, (batch_loss batch lab feats (raise c net) < bound)%R.
Proof. exact batch_unbounded. Qed.
Print Assumptions C77_batch_unbounded.

(** * Examples *)
Lemma two_types : usual_types 2 [ReLU; Softmax].
Proof. split; [lia|]. intros [|[|j]] Hj; [reflexivity..|lia]. Qed.
(** The demonstration network without Adam, trained on its first example after the history [net_ops]. *)
Notation sgd_made :=
  (network_New sgdE 1 2 [3; 2] [ReLU; Softmax] 2 net_half 4 [1; 1] [2; 2] [2; 2] [fone; net_half; fone; fone] net0).
Definition runs (made : res (Network * mem)) : bool :=
  match made with
  | Ok (n, m) => match call_ops sgdE 1 n net_ops m with
                 | Ok (_, m1) => fine (network_ProcessInput sgdE 1 n (take 1 net_exs) 3 false false m1)
                 | Panic _ => false end
  | Panic _ => false
  end.
Lemma runs_spec made : runs made = true -> exists n m n' m1 r m2,
  made = Ok (n, m) /\ call_ops sgdE 1 n net_ops m = Ok (n', m1) /\
  network_ProcessInput sgdE 1 n (take 1 net_exs) 3 false false m1 = Ok (r, m2).
Proof.
  unfold runs. destruct made as [[n m]|]; [|discriminate]. destruct (call_ops sgdE 1 n net_ops m) as [[n1 m1]|] eqn:E1; [|discriminate].
  destruct (network_ProcessInput sgdE 1 n (take 1 net_exs) 3 false false m1) as [[r m2]|] eqn:E2; [|discriminate].
  intros _. exists n, m, n1, m1, r, m2. split; [reflexivity|]. split; [exact E1|exact E2].
Qed.
Example C77_code_ex : usual_types 2 [ReLU; Softmax] /\ dims_ok sgdE 2 [3; 2] 2 4 /\ exists n m n' m1 r m2,
  sgd_made = Ok (n, m) /\ call_ops sgdE 1 n net_ops m = Ok (n', m1) /\
  network_ProcessInput sgdE 1 n (take 1 net_exs) 3 false false m1 = Ok (r, m2).
Proof. split; [exact two_types|]. split; [exact net_dims|]. apply (runs_spec sgd_made). vm_compute. reflexivity. Qed.
(** Over the reals: one hidden layer with a node on either side of the kink, two outputs, one label. *)
Definition real_net : list (list (unit_ (reals 0))) :=
  [ [(0, [1%R; (-1)%R], (/ 2)%R); (1, [(-1)%R; 0%R], (/ 4)%R)]; [(0, [1%R; 2%R], 0%R); (1, [0%R; 1%R], 1%R)] ].
Example C77_gradient_ex : labels_active [1] real_net /\ off_kink real_net [(0, 1%R)].
Proof.
  split.
  - eexists. split; [reflexivity|]. split; [done|]. cbn. split; [|split; [apply NoDup_singleton|]].
    + apply NoDup_cons. split; [|apply NoDup_singleton]. rewrite elem_of_list_singleton. lia.
    + split; [done|]. intros t Ht. apply elem_of_list_singleton in Ht as ->. right. left.
  - cbn [off_kink real_net]. split; [|done]. constructor; [|constructor; [|constructor]].
    + rewrite pre_R. unfold weight. cbn. change (Z.to_nat 0) with 0%nat. cbn. lra.
    + rewrite pre_R. unfold weight. cbn. change (Z.to_nat 0) with 0%nat. cbn. lra.
Qed.
Example C77_constant_ex : exists z', z' ∈ [(-1)%R; 2%R] /\ (0 <= z')%R.
Proof. exists 2%R. split; [right; left|lra]. Qed.
