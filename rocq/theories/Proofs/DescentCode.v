(** The steps of the code, with the biases: the plain step, and the first one with Adam. *)
From Verif.Proofs Require Import DenseProofs NetCalls BatchProofs GradFloat.
From Verif.Spec Require Import TrainSpec BatchSpec GradSpec DescentSpec.
From Coq Require Import Lia.
Local Open Scope Z_scope.

Lemma descent_sgd E c num sizes types batch lr inputDim k l rp sparsity m n m' os n' m'' ex iter rehash rebuild ins n'' m3 :
  e_LoadWeight E = false -> e_UseAdam E = false -> dims_ok E num sizes batch inputDim -> usual_types num types ->
  network_New E c num sizes types batch lr inputDim k l rp sparsity m = Ok (n, m') ->
  call_ops E c n os m' = Ok (n', m'') ->
  network_ProcessInput E c n [ex] iter rehash rebuild m'' = Ok ((ins, n''), m3) ->
  exists nv nv' p, live E m'' c n nv /\ live E m3 c n nv' /\ generic_pass E batch (nv_layers nv) ex p /\
    forall j lv lv' i v v', nv_layers nv !! j = Some lv -> nv_layers nv' !! j = Some lv' ->
      lv_nodes lv !! i = Some v -> lv_nodes lv' !! i = Some v' ->
      (v_w v', v_bias v') =
        match error_of p j i with
        | Some d => (stepped (floats E) lr d (map unpair (inputs_of p j)) (v_w v), bias_step (floats E) (bool_decide (j = 0%nat)) lr d (v_bias v))
        | None => (v_w v, v_bias v) end.
Proof.
  intros HL HE HD HU HN HO HP.
  destruct (shape_calls _ _ _ _ _ _ _ _ _ _ _ _ _ _ _ _ _ _ HL HD HN HO) as (_ & nv0 & L0 & SH & _).
  destruct (sgd_training _ _ _ _ _ _ _ _ _ _ _ _ _ _ _ _ _ _ _ _ _ _ _ _ _ HL HE HD HN HO HP) as (nv & nv' & lvs & ps & L & L' & HR & [HLp HPs] & HW).
  rewrite (live_unique _ _ _ _ _ _ L0 L) in SH. destruct ps as [|p [|]]; [done| |done].
  destruct (HPs 0%nat ex p eq_refl eq_refl) as (ls & Hls & Hp). cbn [take] in Hls.
  assert (HLR : learning_rate E lr iter = lr) by (unfold learning_rate; by rewrite HE).
  exists nv, nv', p. split; [exact L|]. split; [exact L'|]. split.
  - eapply same_generic; [|eapply shape_types; [exact HU|exact SH]|exact Hp].
    eapply same_trans; [exact (reshuffled_same _ _ _ HR)|exact (sgd_none_same _ _ _ Hls)].
  - intros j lv lv' i v v' H1 H2 H3 H4. destruct (HW j lv lv' i v v' H1 H2 H3 H4) as (_ & W & B). rewrite W, B, HLR. unfold sgd_weights, sgd_bias. cbn [fold_left].
    destruct (error_of p j i); [|reflexivity]. f_equal. apply code_step.
Qed.
Lemma descent_adam E c num sizes types batch lr inputDim k l rp sparsity m n m' exs iter rehash rebuild ins n'' m3 :
  e_LoadWeight E = false -> e_UseAdam E = true -> dims_ok E num sizes batch inputDim -> usual_types num types ->
  network_New E c num sizes types batch lr inputDim k l rp sparsity m = Ok (n, m') ->
  network_ProcessInput E c n exs iter rehash rebuild m' = Ok ((ins, n''), m3) ->
  exists nv nv' ps, live E m' c n nv /\ live E m3 c n nv' /\ Forall2 (generic_pass E batch (nv_layers nv)) exs ps /\
    forall j lv lv' i v v', nv_layers nv !! j = Some lv -> nv_layers nv' !! j = Some lv' ->
      lv_nodes lv !! i = Some v -> lv_nodes lv' !! i = Some v' ->
      let first g x := adam_par (learning_rate E lr iter) (adam_mom g fzero) (adam_vel g fzero) x in
      v_w v' = zip_with first (weight_gradient ps j i (replicate (length (v_w v)) fzero)) (v_w v) /\
      v_bias v' = first (bias_gradient ps j i fzero) (v_bias v).
Proof.
  intros HL HE HD HU HN HP.
  destruct (grad_adam _ _ _ _ _ _ _ _ _ _ _ _ _ _ _ [] _ _ _ _ _ _ _ _ _ HL HE HD HU HN eq_refl HP) as (nv & nv' & ps & L & L' & HG & HS).
  destruct (new_effect _ _ _ _ _ _ _ _ _ _ _ _ _ _ _ HL HD HN) as (nv0 & L0 & [_ SH] & HF). rewrite (live_unique _ _ _ _ _ _ L0 L) in SH, HF.
  exists nv, nv', ps. split; [exact L|]. split; [exact L'|]. split; [exact HG|]. intros j lv lv' i v v' H1 H2 H3 H4 first.
  destruct (HS j lv lv' i v v' H1 H2 H3 H4) as [(T & W1 & W2 & W3) HA (B1 & B2 & B3)].
  destruct (SH _ _ H1) as (size & prev & ty & kj & lj & rj & Q1 & Q2 & Q3 & _ & _ & Q6 & SS).
  destruct (HF _ _ _ _ _ _ H1 Q1 Q2 Q3 Q6) as [_ HN']. rewrite HN' in H3. unfold new_nodes in H3. apply list_lookup_fmap_inv in H3 as (i' & EV & _). rewrite HE in EV.
  assert (EW : v_mom v = replicate (length (v_w v)) fzero /\ v_vel v = replicate (length (v_w v)) fzero /\ v_momBias v = fzero /\ v_velBias v = fzero).
  { rewrite EV. unfold new_node. cbn. rewrite map_length, seq_length. done. }
  clear EV. destruct EW as (M1 & M2 & M3 & M4). split.
  - apply list_eq. intros q. rewrite lookup_zip_with. destruct (v_w v !! q) as [w|] eqn:Hw.
    + pose proof (lookup_lt_Some _ _ _ Hw) as Lq. destruct (lookup_lt_is_Some_2 (weight_gradient ps j i (replicate (length (v_w v)) fzero)) q) as [g Hg]; [lia|]. rewrite Hg. cbn.
      destruct (HA q g fzero fzero w Hg) as (_ & _ & R); [rewrite M1; by apply lookup_replicate_2|rewrite M2; by apply lookup_replicate_2|done|]. exact R.
    + apply lookup_ge_None in Hw. rewrite (proj2 (lookup_ge_None (v_w v') q)) by lia. destruct (weight_gradient _ _ _ _ !! q); reflexivity.
  - rewrite B3, B1, B2, M3, M4. reflexivity.
Qed.
