(** Training calls without examples. *)
From Verif.Proofs Require Import BaseProofs MemProofs NetLive NetCalls NetInfer DenseProofs BatchProofs.
From Verif.Spec Require Import LayerSpec InferSpec ShapeSpec EmptySpec.
From Coq Require Import Lia.
Local Open Scope Z_scope.

Lemma parameters_eq E num sizes types batch inputDim k l rp nv nv' :
  net_shape E num sizes types batch inputDim k l rp nv -> net_shape E num sizes types batch inputDim k l rp nv' ->
  (forall j lv lv' i v v', nv_layers nv !! j = Some lv -> nv_layers nv' !! j = Some lv' ->
      lv_nodes lv !! i = Some v -> lv_nodes lv' !! i = Some v' ->
      identity v' = identity v /\ v_w v' = v_w v /\ v_bias v' = v_bias v) ->
  parameters_of (nv_layers nv') = parameters_of (nv_layers nv).
Proof.
  intros [Hn HS] [Hn' HS'] H. unfold parameters_of. apply list_eq. intros j. rewrite !list_lookup_fmap.
  destruct (nv_layers nv !! j) as [lv|] eqn:E1.
  - destruct (lookup_lt_is_Some_2 (nv_layers nv') j) as [lv' E2]; [apply lookup_lt_Some in E1; lia|]. rewrite E2. cbn. f_equal.
    destruct (HS _ _ E1) as (size & prev & ty & kj & lj & rj & G1 & G2 & G3 & G4 & G5 & G6 & Sh).
    destruct (HS' _ _ E2) as (size' & prev' & ty' & kj' & lj' & rj' & G1' & G2' & G3' & G4' & G5' & G6' & Sh').
    assert (size' = size) as -> by congruence. assert (ty' = ty) as -> by congruence.
    f_equal; [by rewrite (ss_type _ _ _ _ _ _ _ _ _ Sh), (ss_type _ _ _ _ _ _ _ _ _ Sh')|].
    apply list_eq. intros i. rewrite !list_lookup_fmap.
    pose proof (ss_size _ _ _ _ _ _ _ _ _ Sh) as HL. pose proof (ss_size _ _ _ _ _ _ _ _ _ Sh') as HL'.
    destruct (lv_nodes lv !! i) as [v|] eqn:F1.
    + destruct (lookup_lt_is_Some_2 (lv_nodes lv') i) as [v' F2]; [apply lookup_lt_Some in F1; lia|]. rewrite F2. cbn. f_equal.
      destruct (H _ _ _ _ _ _ E1 E2 F1 F2) as (Hid & -> & ->). unfold identity in Hid. by injection Hid as -> _ _.
    + apply lookup_ge_None in F1. rewrite (proj2 (lookup_ge_None (lv_nodes lv') i)) by lia. done.
  - apply lookup_ge_None in E1. rewrite (proj2 (lookup_ge_None (nv_layers nv') j)) by lia. done.
Qed.

Lemma call_snoc E c num sizes types batch lr inputDim k l rp sparsity m n m' os n' m'' exs iter rehash rebuild ins n'' m3 :
  e_LoadWeight E = false -> dims_ok E num sizes batch inputDim ->
  network_New E c num sizes types batch lr inputDim k l rp sparsity m = Ok (n, m') ->
  call_ops E c n os m' = Ok (n', m'') ->
  network_ProcessInput E c n exs iter rehash rebuild m'' = Ok ((ins, n''), m3) ->
  call_ops E c n (os ++ [OpTrain exs iter rehash rebuild]) m' = Ok (n'', m3).
Proof.
  intros HL HD HN HO HP. destruct (shape_calls _ _ _ _ _ _ _ _ _ _ _ _ _ _ _ _ _ _ HL HD HN HO) as [-> _].
  unfold call_ops in *. rewrite MemProofs.mfold_app. unfold mbind, M_bind. rewrite HO. cbn [mfold call_op]. unfold mbind, M_bind. rewrite HP. done.
Qed.

Lemma empty_sgd E c num sizes types batch lr inputDim k l rp sparsity m n m' os n' m'' iter rehash rebuild ins n'' m3 :
  e_LoadWeight E = false -> e_UseAdam E = false -> dims_ok E num sizes batch inputDim ->
  network_New E c num sizes types batch lr inputDim k l rp sparsity m = Ok (n, m') ->
  call_ops E c n os m' = Ok (n', m'') ->
  network_ProcessInput E c n [] iter rehash rebuild m'' = Ok ((ins, n''), m3) ->
  exists nv nv', live E m'' c n nv /\ live E m3 c n nv' /\ parameters_of (nv_layers nv') = parameters_of (nv_layers nv).
Proof.
  intros HL HA HD HN HO HP.
  destruct (sgd_training _ _ _ _ _ _ _ _ _ _ _ _ _ _ _ _ _ _ _ _ _ _ _ _ _ HL HA HD HN HO HP) as (nv & nv' & lvs & ps & L & L' & _ & [Hps _] & H).
  destruct ps as [|p ps]; [|discriminate Hps].
  pose proof (call_snoc _ _ _ _ _ _ _ _ _ _ _ _ _ _ _ _ _ _ _ _ _ _ _ _ _ HL HD HN HO HP) as HO'.
  destruct (shape_calls _ _ _ _ _ _ _ _ _ _ _ _ _ _ _ _ _ _ HL HD HN HO) as (_ & nv0 & L0 & S0 & _).
  destruct (shape_calls _ _ _ _ _ _ _ _ _ _ _ _ _ _ _ _ _ _ HL HD HN HO') as (_ & nv1 & L1 & S1 & _).
  rewrite (live_unique _ _ _ _ _ _ L0 L) in S0. rewrite (live_unique _ _ _ _ _ _ L1 L') in S1.
  exists nv, nv'. split; [exact L|]. split; [exact L'|]. exact (parameters_eq _ _ _ _ _ _ _ _ _ _ _ S0 S1 H).
Qed.

Lemma empty_sgd_claim : empty_claim false.
Proof.
  intros E c num sizes types batch lr inputDim k l rp sparsity m n m' os n' m1 exs cnt n1 m2 iter rehash rebuild ins n2 m3 cnt' n3 m4
    HL HA HD HN HO HDP H1 H2 H3.
  assert (HO2 : call_ops E c n (os ++ [OpPredict exs]) m' = Ok (n1, m2)).
  { destruct (shape_calls _ _ _ _ _ _ _ _ _ _ _ _ _ _ _ _ _ _ HL HD HN HO) as [-> _].
    unfold call_ops in *. rewrite MemProofs.mfold_app. unfold mbind, M_bind. rewrite HO. cbn [mfold call_op]. unfold mbind, M_bind. rewrite H1. done. }
  destruct (shape_calls _ _ _ _ _ _ _ _ _ _ _ _ _ _ _ _ _ _ HL HD HN HO) as (_ & nv1 & L1 & _).
  destruct (empty_sgd _ _ _ _ _ _ _ _ _ _ _ _ _ _ _ _ _ _ _ _ _ _ _ _ HL HA HD HN HO2 H2) as (nv2 & nv3 & L2 & L3 & HP).
  destruct (predict_unchanged _ _ _ _ _ _ _ _ _ L1 H1) as (_ & nv2' & L2' & S2). rewrite (live_unique _ _ _ _ _ _ L2' L2) in S2.
  rewrite (dense_predict _ _ _ _ _ _ _ _ _ L1 HDP H1), (dense_predict _ _ _ _ _ _ _ _ _ L3 HDP H3).
  by rewrite HP, (same_parameters _ _ _ S2).
Qed.

Lemma empty_adam E c num sizes types batch lr inputDim k l rp sparsity m n m' os n' m'' iter rehash rebuild ins n'' m3 :
  e_LoadWeight E = false -> e_UseAdam E = true -> dims_ok E num sizes batch inputDim ->
  network_New E c num sizes types batch lr inputDim k l rp sparsity m = Ok (n, m') ->
  call_ops E c n os m' = Ok (n', m'') ->
  network_ProcessInput E c n [] iter rehash rebuild m'' = Ok ((ins, n''), m3) ->
  exists nv nv', live E m'' c n nv /\ live E m3 c n nv' /\
    forall j lv lv' i v v', nv_layers nv !! j = Some lv -> nv_layers nv' !! j = Some lv' ->
      lv_nodes lv !! i = Some v -> lv_nodes lv' !! i = Some v' ->
      identity v' = identity v /\ adam_step (learning_rate E lr iter) (replicate (length (v_w v)) fzero) fzero v v'.
Proof.
  intros HL HA HD HN HO HP.
  destruct (batch_training _ _ _ _ _ _ _ _ _ _ _ _ _ _ _ _ _ _ _ _ _ _ _ _ _ HL HA HD HN HO HP) as (nv & nv' & lvs & ps & L & L' & _ & Hps & H).
  apply Forall2_nil_inv_l in Hps as ->. exists nv, nv'. split; [exact L|]. split; [exact L'|]. exact H.
Qed.
