(** Properties C56, C57, C65 and C66: training (package network). *)
From Verif.Spec Require Import ShapeSpec.
From Verif.Proofs Require Import NetCalls.
From Verif.Properties Require Import NetProps.
Local Open Scope Z_scope.

(** * C64 (continued) The memory determines the content of a network *)
Theorem C64_unique : forall E m c n nv nv', live E m c n nv -> live E m c n nv' -> nv = nv'.
Proof. exact live_unique. Qed.
Print Assumptions C64_unique.
Example C64_unique_ex : exists m nv, call_ops netE 1 net_n net_ops net_m = Ok (net_n, m) /\ live netE m 1 net_n nv.
Proof. exact C64_live_ex. Qed.

(** * C65 The dimensions of a network never change, and no gradient or error is left between calls *)
Theorem C65_shape : forall E c num sizes types batch lr inputDim k l rp sparsity m n m' os n' m'',
  e_LoadWeight E = false -> dims_ok E num sizes batch inputDim ->
  network_New E c num sizes types batch lr inputDim k l rp sparsity m = Ok (n, m') ->
  call_ops E c n os m' = Ok (n', m'') ->
  n' = n /\ exists nv, live E m'' c n nv /\ net_shape E num sizes types batch inputDim k l rp nv /\
    Forall (fun lv => Forall (settled (e_UseAdam E)) (lv_nodes lv)) (nv_layers nv).
Proof. exact shape_calls. Qed.
Print Assumptions C65_shape.
(** The demonstration network after three calls: two layers, of three and two nodes. *)
Example C65_shape_ex : exists m nv lv0 lv1,
  call_ops netE 1 net_n net_ops net_m = Ok (net_n, m) /\ live netE m 1 net_n nv /\ nv_layers nv = [lv0; lv1] /\
  length (lv_nodes lv0) = 3%nat /\ length (lv_nodes lv1) = 2%nat /\
  Forall (settled true) (lv_nodes lv0) /\ Forall (settled true) (lv_nodes lv1).
Proof.
  destruct (net_live net_ops) as (m & nv & HO & L); [vm_compute; reflexivity|].
  pose proof net_made_Ok as HM. revert HM HO L. generalize net_n, net_m. intros n m0 HM HO L.
  destruct (C65_shape netE _ _ _ _ _ _ _ _ _ _ _ _ _ _ _ _ _ eq_refl net_dims HM HO) as [_ (nv' & L' & [HN HS] & HZ)].
  rewrite <- (live_unique _ _ _ _ _ _ L L') in HN, HS, HZ. clear nv' L'.
  destruct (nv_layers nv) as [|lv0 [|lv1 [|]]] eqn:EV; try (cbn in HN; lia).
  destruct (HS 0%nat lv0 eq_refl) as (? & ? & ? & ? & ? & ? & H1 & _ & _ & _ & _ & _ & S0). injection H1 as <-.
  destruct (HS 1%nat lv1 eq_refl) as (? & ? & ? & ? & ? & ? & H2 & _ & _ & _ & _ & _ & S1). injection H2 as <-.
  apply Forall_cons in HZ as [Z0 HZ]. apply Forall_cons in HZ as [Z1 _].
  exists m, nv, lv0, lv1. split; [exact HO|]. split; [exact L|]. split; [exact EV|]. split; [exact (ss_size _ _ _ _ _ _ _ _ _ S0)|].
  split; [exact (ss_size _ _ _ _ _ _ _ _ _ S1)|]. split; [exact Z0|exact Z1].
Qed.

(** * C56 A training call: forward, back-propagation and update *)
Theorem C56_training : forall E c num sizes types batch lr inputDim k l rp sparsity m n m' os n' m'' exs iter rehash rebuild ins n'' m3,
  e_LoadWeight E = false -> dims_ok E num sizes batch inputDim ->
  network_New E c num sizes types batch lr inputDim k l rp sparsity m = Ok (n, m') ->
  call_ops E c n os m' = Ok (n', m'') ->
  network_ProcessInput E c n exs iter rehash rebuild m'' = Ok ((ins, n''), m3) ->
  n'' = n /\ exists nv nv', live E m'' c n nv /\ live E m3 c n nv' /\
    training_call E batch sparsity lr exs iter rehash rebuild (nv_layers nv) (nv_layers nv') /\
    Forall (fun lv => Forall (settled (e_UseAdam E)) (lv_nodes lv)) (nv_layers nv').
Proof. exact training_done. Qed.
Print Assumptions C56_training.

(** * C57 After a rehash every node is findable *)
Theorem C57_rehash : forall E c num sizes types batch lr inputDim k l rp sparsity m n m' os n' m'' exs iter rebuild ins n'' m3,
  e_LoadWeight E = false -> dims_ok E num sizes batch inputDim ->
  network_New E c num sizes types batch lr inputDim k l rp sparsity m = Ok (n, m') ->
  call_ops E c n os m' = Ok (n', m'') ->
  network_ProcessInput E c n exs iter true rebuild m'' = Ok ((ins, n''), m3) ->
  exists nv, live E m3 c n nv /\
    forall j lv sp rj, nv_layers nv !! j = Some lv -> sparsity !! j = Some sp -> rp !! j = Some rj ->
      fltb sp fone = true -> 0 <= rj <= 62 -> findable E lv.
Proof. exact rehash_findable. Qed.
Print Assumptions C57_rehash.
(** Every node of a new network is findable too, and predictions leave it so. *)
Theorem C57_new_predict : forall E c num sizes types batch lr inputDim k l rp sparsity m n m' os n' m'',
  e_LoadWeight E = false -> dims_ok E num sizes batch inputDim ->
  network_New E c num sizes types batch lr inputDim k l rp sparsity m = Ok (n, m') ->
  call_ops E c n (map OpPredict os) m' = Ok (n', m'') ->
  exists nv, live E m'' c n nv /\
    forall j lv rj, nv_layers nv !! j = Some lv -> rp !! j = Some rj -> 0 <= rj <= 62 -> findable E lv.
Proof. exact new_predict_findable. Qed.
Print Assumptions C57_new_predict.
Theorem C57_predict : forall E m c n nv exs cnt n' m' nv' j lv lv',
  live E m c n nv -> network_PredictClass E c n exs m = Ok ((cnt, n'), m') -> live E m' c n nv' ->
  nv_layers nv !! j = Some lv -> nv_layers nv' !! j = Some lv' -> findable E lv -> findable E lv'.
Proof. exact predict_keeps_findable. Qed.
Print Assumptions C57_predict.

(** A fourth call, reshuffling, rehashing and rebuilding, for both. *)
Example C56_C57_ex : exists m ins m3 nv lv0 lv1,
  call_ops netE 1 net_n net_ops net_m = Ok (net_n, m) /\
  network_ProcessInput netE 1 net_n net_exs 6945 true true m = Ok ((ins, net_n), m3) /\
  length ins = 2%nat /\
  live netE m3 1 net_n nv /\ nv_layers nv = [lv0; lv1] /\ findable netE lv1.
Proof.
  destruct (net_live net_ops) as (m & nv & HO & L); [vm_compute; reflexivity|].
  assert (H : match call_ops netE 1 net_n net_ops net_m with
              | Ok (n, m) => match network_ProcessInput netE 1 n net_exs 6945 true true m with Ok ((i, _), _) => length i | Panic _ => 0%nat end
              | Panic _ => 0%nat end = 2%nat) by (vm_compute; reflexivity).
  rewrite HO in H. destruct (network_ProcessInput netE 1 net_n net_exs 6945 true true m) as [[[ins n'] m3]|] eqn:E; [|discriminate H].
  pose proof net_made_Ok as HM. revert HM HO L E. generalize net_n, net_m. intros n m0 HM HO L E.
  assert (HO' := HO).
  destruct (C56_training netE _ _ _ _ _ _ _ _ _ _ _ _ _ _ _ _ _ _ _ _ _ _ _ _ eq_refl net_dims HM HO E) as [-> _].
  destruct (C57_rehash netE _ _ _ _ _ _ _ _ _ _ _ _ _ _ _ _ _ _ _ _ _ _ _ eq_refl net_dims HM HO E) as (nv3 & L3 & HF).
  assert (HN : length (nv_layers nv3) = 2%nat).
  { destruct L3 as (_ & HN & _). destruct L as (_ & HN' & _).
    destruct (C65_shape netE _ _ _ _ _ _ _ _ _ _ _ _ _ _ _ _ _ eq_refl net_dims HM HO') as [_ (nv' & L' & [HS _] & _)]. destruct L' as (_ & HN'' & _). lia. }
  destruct (nv_layers nv3) as [|lv0 [|lv1 [|]]] eqn:EV; try discriminate HN.
  exists m, ins, m3, nv3, lv0, lv1. split; [exact HO'|]. split; [exact E|]. split; [exact H|]. split; [exact L3|]. split; [exact EV|].
  apply (HF 1%nat lv1 net_half 2 eq_refl eq_refl eq_refl); [vm_compute; reflexivity|lia].
Qed.

(** * C66 What New makes *)
Theorem C66_new : forall E c num sizes types batch lr inputDim k l rp sparsity m n m',
  e_LoadWeight E = false -> dims_ok E num sizes batch inputDim ->
  network_New E c num sizes types batch lr inputDim k l rp sparsity m = Ok (n, m') ->
  exists nv, live E m' c n nv /\ net_shape E num sizes types batch inputDim k l rp nv /\
    forall j lv size prev ty rj, nv_layers nv !! j = Some lv -> sizes !! j = Some size -> (inputDim :: sizes) !! j = Some prev ->
      types !! j = Some ty -> rp !! j = Some rj -> new_layer_spec E (m_norm m) (m_npos m) sizes batch inputDim j size prev ty rj lv.
Proof. exact new_effect. Qed.
Print Assumptions C66_new.
Example C66_new_ex : exists nv lv0 lv1, live netE net_m 1 net_n nv /\ nv_layers nv = [lv0; lv1] /\
  findable netE lv0 /\ findable netE lv1 /\ lv_nodes lv1 = new_nodes true (m_norm net0) 15 2 3 Softmax 2.
Proof.
  pose proof net_made_Ok as HM. revert HM. generalize net_n, net_m. intros n m HM.
  destruct (C66_new netE _ _ _ _ _ _ _ _ _ _ _ _ _ _ eq_refl net_dims HM) as (nv & L & [HN _] & H).
  destruct (nv_layers nv) as [|lv0 [|lv1 [|]]] eqn:EV; try (cbn in HN; lia).
  destruct (H 0%nat lv0 _ _ _ _ eq_refl eq_refl eq_refl eq_refl eq_refl) as [F0 _].
  destruct (H 1%nat lv1 _ _ _ _ eq_refl eq_refl eq_refl eq_refl eq_refl) as [F1 N1].
  exists nv, lv0, lv1. split; [exact L|]. split; [exact EV|]. split; [apply F0; lia|]. split; [apply F1; lia|exact N1].
Qed.
