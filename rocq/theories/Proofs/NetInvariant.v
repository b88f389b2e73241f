(** Invariants of networks: what New establishes and every training call and prediction keeps holds after every
    sequence of calls. *)
From Verif.Proofs Require Import BaseProofs FifoProofs NetInfer NetCalls ProgramProofs.
From Verif.Spec Require Import LayerSpec ShapeSpec.
Local Open Scope Z_scope.

Section Invariant.
  Context (E : env) (c num : Z) (sizes : list Z) (types : list NodeType) (batch : Z) (lr : float64) (inputDim : Z) (k l rp : list Z)
    (sparsity : list float64) (P : NetView -> Prop).
  Notation shaped nv := (net_shape E num sizes types batch inputDim k l rp nv).
  Notation calm nv := (Forall (fun lv => Forall (settled (e_UseAdam E)) (lv_nodes lv)) (nv_layers nv)).
  Context (Hnew : forall norm pos nv, shaped nv ->
    (forall j lv size prev ty rj, nv_layers nv !! j = Some lv -> sizes !! j = Some size -> (inputDim :: sizes) !! j = Some prev ->
      types !! j = Some ty -> rp !! j = Some rj -> new_layer_spec E norm pos sizes batch inputDim j size prev ty rj lv) -> P nv).
  Context (Htrain : forall exs iter rehash rebuild nv nv', shaped nv -> calm nv -> P nv ->
    training_call E batch sparsity lr exs iter rehash rebuild (nv_layers nv) (nv_layers nv') -> shaped nv' -> P nv').
  Context (Hpredict : forall I nv nv', P nv -> net_same_but I nv nv' -> P nv').

  Lemma net_invariant m n m' os n' m'' :
    e_LoadWeight E = false -> dims_ok E num sizes batch inputDim ->
    network_New E c num sizes types batch lr inputDim k l rp sparsity m = Ok (n, m') ->
    call_ops E c n os m' = Ok (n', m'') ->
    exists nv, live E m'' c n nv /\ shaped nv /\ calm nv /\ P nv.
  Proof.
    intros HL HD HN. revert n' m''. induction os as [|o os IH] using rev_ind; intros n' m'' HO.
    - injection HO as <- <-. destruct (new_effect _ _ _ _ _ _ _ _ _ _ _ _ _ _ _ HL HD HN) as (nv & L & S & HF).
      destruct (shape_calls E c num sizes types batch lr inputDim k l rp sparsity m n m' [] n m' HL HD HN eq_refl) as (_ & nv' & L' & _ & HZ).
      rewrite <- (live_unique _ _ _ _ _ _ L L') in HZ. exists nv. split; [done|]. split; [done|]. split; [done|]. by eapply Hnew.
    - pose proof HO as HO'. rewrite calls_app in HO.
      destruct (call_ops E c n os m') as [[n1 m1]|] eqn:E1; [|discriminate HO].
      destruct (shape_calls _ _ _ _ _ _ _ _ _ _ _ _ _ _ _ _ _ _ HL HD HN E1) as [-> _].
      destruct (IH _ _ eq_refl) as (nv & L & S & Z & HP). clear IH.
      destruct (shape_calls _ _ _ _ _ _ _ _ _ _ _ _ _ _ _ _ _ _ HL HD HN HO') as (-> & nv' & L' & S' & Z').
      exists nv'. split; [done|]. split; [done|]. split; [done|].
      unfold call_ops in HO. cbn [mfold] in HO. apply bindM_inv in HO as (n2 & m2 & HO & HR). injection HR as -> ->.
      destruct o as [exs iter rehash rebuild|exs]; cbn [call_op] in HO; apply bindM_inv in HO as ([cnt n3] & m3 & HO & HR); injection HR as -> ->.
      + destruct (training_done _ _ _ _ _ _ _ _ _ _ _ _ _ _ _ _ _ _ _ _ _ _ _ _ _ HL HD HN E1 HO) as (_ & nv1 & nv2 & L1 & L2 & HT & _).
        rewrite <- (live_unique _ _ _ _ _ _ L L1), <- (live_unique _ _ _ _ _ _ L' L2) in HT. exact (Htrain _ _ _ _ _ _ S Z HP HT S').
      + destruct (predict_unchanged _ _ _ _ _ _ _ _ _ L HO) as (_ & nv1 & L1 & HS). rewrite <- (live_unique _ _ _ _ _ _ L' L1) in HS. exact (Hpredict _ _ _ HP HS).
  Qed.
End Invariant.
