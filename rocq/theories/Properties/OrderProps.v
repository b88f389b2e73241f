(** Properties C75 and C76: copy-on-write ids of networks and the order of labels (network/network.go). *)
From Verif.Model Require Import Network.
From Verif.Spec Require Import LayerSpec InferSpec NetSpec OrderSpec.
From Verif.Proofs Require Import NetInfer SoftmaxProofs OrderProofs.
From Verif.Properties Require Import NetProps.
Local Open Scope Z_scope.

(** * C75 The copy-on-write id of a network *)

(** Networks that differ in nothing but their id are interchangeable: every prediction and training call gives the
    same answer and has the same effect on the memory. *)
Theorem C75_alias : forall E c a b, same_network a b ->
  (forall exs m, network_PredictClass E c a exs m = network_PredictClass E c b exs m) /\
  (forall exs iter rehash rebuild m,
     network_ProcessInput E c a exs iter rehash rebuild m = network_ProcessInput E c b exs iter rehash rebuild m).
Proof. exact alias. Qed.
Print Assumptions C75_alias.

(** So are they under whole sequences of calls: which of the two was kept does not matter. *)
Theorem C75_alias_calls : forall E c a b os m, same_network a b -> os <> [] ->
  call_ops E c a os m = call_ops E c b os m.
Proof. exact alias_calls. Qed.
Print Assumptions C75_alias_calls.

(** What a call returns is the network it was called on, with the id of the call. *)
Theorem C75_result : forall E c n exs iter rehash rebuild m,
  (forall cnt n' m', network_PredictClass E c n exs m = Ok ((cnt, n'), m') -> same_network n n' /\ nw_cowId n' = c) /\
  (forall ins n' m', network_ProcessInput E c n exs iter rehash rebuild m = Ok ((ins, n'), m') ->
     same_network n n' /\ nw_cowId n' = c).
Proof. exact result_is. Qed.
Print Assumptions C75_result.

(** The concrete network of [NetProps] is trained under a foreign id without a panic, so the statements speak about
    something; the returned network is the other one. *)
Example C75_result_ex :
  exists ins n' m', network_ProcessInput netE 2 net_n net_exs 0 true true net_m = Ok ((ins, n'), m') /\
    same_network net_n n' /\ nw_cowId n' = 2 /\ n' <> net_n.
Proof.
  pose proof net_made_Ok as HM.
  assert (H1 : match network_ProcessInput netE 2 net_n net_exs 0 true true net_m with
               | Ok ((_, n'), _) => nw_cowId n' =? 2 | _ => false end = true) by (vm_compute; reflexivity).
  assert (H2 : (nw_cowId net_n =? 1) = true) by (vm_compute; reflexivity).
  revert HM H1 H2. generalize net_n, net_m. intros n m HM H1 H2.
  destruct (network_ProcessInput netE 2 n net_exs 0 true true m) as [[[ins n'] m']|] eqn:E; [|discriminate].
  exists ins, n', m'. split; [reflexivity|].
  destruct (C75_result netE 2 n net_exs 0 true true m) as [_ R]. destruct (R _ _ _ E) as [S1 S2].
  split; [exact S1|]. split; [exact S2|]. intros ->. apply Z.eqb_eq in H2. lia.
Qed.

(** One example of one feature, and one of none. *)
Definition cow_ex : list Example_ := [mkExample (Some [mkPair 0 fone]) (Some [0])].
Definition cow_bias : list Example_ := [mkExample (Some []) (Some [0])].
Definition cow_lr : float64 := fdiv fone (f_of_Z 8).
Notation cow_made :=
  (network_New netE 1 2 [3; 2] [ReLU; Softmax] 2 cow_lr 4 [1; 1] [2; 2] [2; 2] [fone; net_half; fone; fone] net0).

(** Copy-on-write isolation fails: training a network under another id changes what the original predicts, although
    the original was not passed to anything else.  (The copies share the layers and the float slices.) *)
Definition isolation_claim : Prop :=
  forall E c c' num sizes types batch lr inputDim k l rp sparsity m0 n m exs iter rehash rebuild ins n' m' exs' a b na nb ma mb,
  e_LoadWeight E = false -> dims_ok E num sizes batch inputDim -> c <> c' ->
  network_New E c num sizes types batch lr inputDim k l rp sparsity m0 = Ok (n, m) ->
  network_ProcessInput E c' n exs iter rehash rebuild m = Ok ((ins, n'), m') ->
  network_PredictClass E c n exs' m = Ok ((a, na), ma) ->
  network_PredictClass E c n exs' m' = Ok ((b, nb), mb) ->
  a = b.
Theorem C75_isolation_refuted : ~ isolation_claim.
Proof.
  unfold isolation_claim. intros P. pose proof net_made_Ok as HM.
  assert (H : match network_ProcessInput netE 2 net_n cow_ex 0 true true net_m with
              | Ok (_, m') => match network_PredictClass netE 1 net_n cow_ex net_m, network_PredictClass netE 1 net_n cow_ex m' with
                              | Ok ((a, _), _), Ok ((b, _), _) => negb (a =? b) | _, _ => false end
              | _ => false end = true) by (vm_compute; reflexivity).
  revert HM H. generalize net_n, net_m. intros n m HM H.
  destruct (network_ProcessInput netE 2 n cow_ex 0 true true m) as [[[ins n'] m']|] eqn:E1; [|discriminate].
  destruct (network_PredictClass netE 1 n cow_ex m) as [[[a na] ma]|] eqn:E2; [|discriminate].
  destruct (network_PredictClass netE 1 n cow_ex m') as [[[b nb] mb]|] eqn:E3; [|discriminate].
  apply negb_true_iff, Z.eqb_neq in H. apply H.
  refine (P netE 1 2 2 [3; 2] [ReLU; Softmax] 2 net_half 4 [1; 1] [2; 2] [2; 2] [fone; net_half; fone; fone] net0 n m
            cow_ex 0 true true ins n' m' cow_ex a b na nb ma mb eq_refl net_dims _ HM E1 E2 E3). lia.
Qed.
Print Assumptions C75_isolation_refuted.

(** And the id is not irrelevant either: the same training calls under the network's own id and under another one may
    leave it predicting different things.  (Node copies made in the update loop are dropped, and with them the
    updates of the biases, while the updates of the shared float slices stay.) *)
Definition id_irrelevant_claim : Prop :=
  forall E c c' num sizes types batch lr inputDim k l rp sparsity m0 n m os m1 os' n2 m2 n3 m3 exs a b na nb ma mb,
  e_LoadWeight E = false -> dims_ok E num sizes batch inputDim ->
  network_New E c num sizes types batch lr inputDim k l rp sparsity m0 = Ok (n, m) ->
  call_ops E c n os m = Ok (n, m1) ->
  call_ops E c n os' m1 = Ok (n2, m2) -> call_ops E c' n os' m1 = Ok (n3, m3) ->
  network_PredictClass E c n exs m2 = Ok ((a, na), ma) ->
  network_PredictClass E c n exs m3 = Ok ((b, nb), mb) ->
  a = b.
Theorem C75_lost_update_refuted : ~ id_irrelevant_claim.
Proof.
  unfold id_irrelevant_claim. intros P.
  set (os := [OpTrain cow_ex 0 true true; OpTrain cow_ex 0 true true]).
  set (os' := [OpTrain [] 0 true true; OpTrain [] 0 true true]).
  assert (H : match cow_made with
              | Ok (n, m) => match call_ops netE 1 n os m with
                | Ok (_, m1) => match call_ops netE 1 n os' m1, call_ops netE 2 n os' m1 with
                  | Ok (_, m2), Ok (_, m3) =>
                      match network_PredictClass netE 1 n cow_bias m2, network_PredictClass netE 1 n cow_bias m3 with
                      | Ok ((a, _), _), Ok ((b, _), _) => negb (a =? b) | _, _ => false end
                  | _, _ => false end
                | _ => false end
              | _ => false end = true) by (vm_compute; reflexivity).
  destruct cow_made as [[n m]|] eqn:E0; [|discriminate].
  destruct (call_ops netE 1 n os m) as [[n1 m1]|] eqn:E1; [|discriminate].
  destruct (call_ops netE 1 n os' m1) as [[n2 m2]|] eqn:E2; [|discriminate].
  destruct (call_ops netE 2 n os' m1) as [[n3 m3]|] eqn:E3; [|discriminate].
  destruct (network_PredictClass netE 1 n cow_bias m2) as [[[a na] ma]|] eqn:E4; [|discriminate].
  destruct (network_PredictClass netE 1 n cow_bias m3) as [[[b nb] mb]|] eqn:E5; [|discriminate].
  destruct (C64_live netE 1 2 [3; 2] [ReLU; Softmax] 2 cow_lr 4 [1; 1] [2; 2] [2; 2] [fone; net_half; fone; fone] net0 n m
              os n1 m1 eq_refl net_dims E0 E1) as [-> _].
  apply negb_true_iff, Z.eqb_neq in H. apply H.
  exact (P netE 1 2 2 [3; 2] [ReLU; Softmax] 2 cow_lr 4 [1; 1] [2; 2] [2; 2] [fone; net_half; fone; fone] net0 n m
            os m1 os' n2 m2 n3 m3 cow_bias a b na nb ma mb eq_refl net_dims E0 E1 E2 E3 E4 E5).
Qed.
Print Assumptions C75_lost_update_refuted.

(** * C76 The order of an example's labels *)

(** Training does not depend on the order in which the labels of the examples are listed: the returned numbers of
    touched nodes, the memory left behind and any panic are the same.  Mode 2 is the exception: it starts the active
    nodes of a sampled layer with the labels in their order. *)
Theorem C76_train : forall E c n exs exs' iter rehash rebuild m,
  Forall2 same_example exs exs' -> e_Mode E <> LayerMode2 \/ fully_dense n ->
  network_ProcessInput E c n exs iter rehash rebuild m = network_ProcessInput E c n exs' iter rehash rebuild m.
Proof. exact train_perm. Qed.
Print Assumptions C76_train.

(** Predictions never depend on it. *)
Theorem C76_predict : forall E c n exs exs' m, Forall2 same_example exs exs' ->
  network_PredictClass E c n exs m = network_PredictClass E c n exs' m.
Proof. exact predict_perm. Qed.
Print Assumptions C76_predict.

(** Two labels, listed in both orders, in the sampled concrete network; the training call returns. *)
Definition two_labels (a b : Z) : list Example_ := [mkExample (Some [mkPair 0 fone; mkPair 2 fone]) (Some [a; b])].
Example C76_ex : Forall2 same_example (two_labels 0 1) (two_labels 1 0) /\ two_labels 0 1 <> two_labels 1 0 /\
  e_Mode netE <> LayerMode2 /\ fine (network_ProcessInput netE 1 net_n (two_labels 0 1) 0 true true net_m) = true /\
  network_ProcessInput netE 1 net_n (two_labels 0 1) 0 true true net_m =
  network_ProcessInput netE 1 net_n (two_labels 1 0) 0 true true net_m.
Proof.
  assert (S2 : Forall2 same_example (two_labels 0 1) (two_labels 1 0)).
  { constructor; [|constructor]. split; [reflexivity|]. cbn. apply perm_swap. }
  split; [exact S2|]. split; [discriminate|]. split; [discriminate|]. split; [vm_compute; reflexivity|].
  generalize net_n, net_m. intros n m. apply C76_train; [exact S2|]. left. discriminate.
Qed.
