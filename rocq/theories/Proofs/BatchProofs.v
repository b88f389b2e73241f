(** The passes of a batch. *)
From Verif.Proofs Require Import BaseProofs FifoProofs NetInfer NetCalls NetInvariant.
From Verif.Spec Require Import LayerSpec BatchSpec.
Local Open Scope Z_scope.

Lemma errors_len batch lvs lab outs ds j out d : errors batch lvs lab outs ds -> outs !! S j = Some out -> ds !! j = Some d -> length d = length out.
Proof.
  intros [_ H] Ho Hd. rewrite (H _ _ _ Ho Hd). destruct (lvs !! S j), (outs !! S (S j)), (ds !! S j); by rewrite map_length.
Qed.
Lemma find_index k out : match list_find (fun q => iv_index q = Z.of_nat k) out with
  | Some (a, p) => out !! a = Some p /\ iv_index p = Z.of_nat k
  | None => Z.of_nat k ∉ map iv_index out
  end.
Proof.
  destruct (list_find _ out) as [[a p]|] eqn:EF.
  - apply list_find_Some in EF as (H1 & H2 & _). done.
  - apply list_find_None in EF. intros Hin. apply elem_of_list_fmap in Hin as (q & Hq & Hin). rewrite Forall_forall in EF. by apply (EF q Hin).
Qed.

(** A step and its pass. *)
Lemma step_pass E batch sps lr ex lvs lvs' : example_step E batch sps lr ex lvs lvs' ->
  Forall2 layer_kept lvs lvs' /\ exists p, pass_of E batch lvs sps ex p /\
  forall j lv lv' k v v', lvs !! j = Some lv -> lvs' !! j = Some lv' -> lv_nodes lv !! k = Some v -> lv_nodes lv' !! k = Some v' ->
    identity v' = identity v /\
    learned v' = learned (match error_of p j k with
                          | Some d => gradient (e_UseAdam E) lr (bool_decide (j = 0%nat)) (inputs_of p j) d v
                          | None => v
                          end).
Proof.
  intros [HK (outs & ds & HI & HE & HN)]. split; [done|]. exists (outs, ds). split.
  { split; [done|]. split; [done|]. cbn [fst]. apply Forall_lookup. intros j out Hout. destruct HI as (Ho & _).
    assert (Hout' : outs !! S j = Some out) by (destruct outs; [done|exact Hout]).
    destruct (lookup_lt_is_Some_2 lvs j) as [lv Hlv]; [apply lookup_lt_Some in Hout'; lia|].
    destruct (Forall2_lookup_l _ _ _ _ _ HK Hlv) as (lv' & Hlv' & _).
    destruct (lookup_lt_is_Some_2 outs j) as [cur Hc]; [apply lookup_lt_Some in Hout'; lia|].
    destruct (lookup_lt_is_Some_2 ds j) as [d Hd]; [destruct HE as [-> _]; by eapply lookup_lt_Some|].
    by destruct (HN _ _ _ _ _ _ Hlv Hlv' Hc Hout' Hd) as [H _]. }
  intros j lv lv' k v v' Hlv Hlv' Hv Hv'. pose proof (lookup_lt_Some _ _ _ Hlv) as Hj.
  destruct HI as (Ho & _). destruct (lookup_lt_is_Some_2 outs j) as [cur Hc]; [lia|]. destruct (lookup_lt_is_Some_2 outs (S j)) as [out Hout]; [lia|].
  destruct (lookup_lt_is_Some_2 ds j) as [d Hd]; [destruct HE as [-> _]; lia|].
  destruct (HN _ _ _ _ _ _ Hlv Hlv' Hc Hout Hd) as [_ HN']. destruct (HN' _ _ _ Hv Hv') as (Hid & H1 & H2). split; [done|].
  unfold error_of, inputs_of. cbn [fst snd]. rewrite Hout, Hc, Hd. cbn. pose proof (find_index k out) as HF.
  destruct (list_find _ out) as [[a p]|]; cbn.
  - destruct HF as [Ha Hk]. destruct (lookup_lt_is_Some_2 d a) as [x Hx].
    { rewrite (errors_len _ _ _ _ _ _ _ _ HE Hout Hd). by eapply lookup_lt_Some. }
    rewrite Hx. by eapply H1.
  - by apply H2.
Qed.

(** Nodes of the layers before and after some examples. *)
Lemma trains_kept E batch sps lr exs lvs lvs' : trains E batch sps lr exs lvs lvs' -> Forall2 layer_kept lvs lvs'.
Proof.
  induction 1 as [lvs|exs ex lvs lvs1 lvs2 _ IH HS].
  - apply Forall_Forall2_diag, Forall_true. by constructor.
  - destruct HS as [HK _]. clear -IH HK. revert lvs2 HK. induction IH as [|a b la lb H IH' IH]; intros lvs2 HK; inversion HK as [|? c' ? lc H1 H2]; subst; constructor; [|by apply IH].
    destruct H, H1. constructor; congruence.
Qed.

(** Layers with the same weights, biases, tables and order give the same passes. *)
Definition node_agree (v v' : NodeView) : Prop := v_w v' = v_w v /\ v_bias v' = v_bias v /\ v_type v' = v_type v.
Definition agree (lv lv' : LayerView) : Prop := layer_kept lv lv' /\ Forall2 node_agree (lv_nodes lv) (lv_nodes lv').
Lemma activation_agree v v' cur a : node_agree v v' -> activation v' cur a -> activation v cur a.
Proof. intros (H1 & H2 & H3) (s & Hs & Ha). exists s. rewrite H1 in Hs. by rewrite H3, H2 in Ha. Qed.
Lemma output_agree E lv lv' cur ids out : agree lv lv' -> layer_output E lv' cur ids out -> layer_output E lv cur ids out.
Proof.
  intros [HK HN] (acts & HA & HO). exists acts. rewrite (lk_type _ _ HK) in HO. split; [|done].
  eapply Forall2_impl; [exact HA|]. intros id a [Hid (v' & Hv' & Ha)]. split; [done|].
  destruct (Forall2_lookup_r _ _ _ _ _ HN Hv') as (v & Hv & HG). exists v. split; [done|]. by eapply activation_agree.
Qed.
Lemma chosen_agree E lv lv' cur lab sp ids : agree lv lv' -> chosen E lv' cur lab sp ids -> chosen E lv cur lab sp ids.
Proof.
  intros [HK HN]. apply ChosenProofs.chosen_alike. constructor; try apply HK. eapply Forall2_impl; [exact HN|]. by intros v v' (H1 & H2 & _).
Qed.
Lemma inference_agree E lvs lvs' sps off lab feats outs : Forall2 agree lvs lvs' ->
  inference E lvs' sps off lab feats outs -> inference E lvs sps off lab feats outs.
Proof.
  intros HA (H1 & H2 & H3). rewrite <- (Forall2_length _ _ _ HA) in H1. split; [done|]. split; [done|].
  intros j lv cur out Hlv Hc Ho. destruct (Forall2_lookup_l _ _ _ _ _ HA Hlv) as (lv' & Hlv' & HG).
  destruct (H3 _ _ _ _ Hlv' Hc Ho) as (sp & ids & Hsp & Hch & Hout). exists sp, ids. split; [done|]. split; [by eapply chosen_agree|by eapply output_agree].
Qed.
Lemma weight_agree vs vs' k q : Forall2 node_agree vs vs' -> weight_of vs' k q = weight_of vs k q.
Proof.
  intros HN. unfold weight_of. destruct (vs !! Z.to_nat k) as [v|] eqn:Ev.
  - destruct (Forall2_lookup_l _ _ _ _ _ HN Ev) as (v' & -> & (H & _)). cbn. by rewrite H.
  - replace (vs' !! Z.to_nat k) with (@None NodeView); [done|]. symmetry. apply lookup_ge_None. rewrite <- (Forall2_length _ _ _ HN). by apply lookup_ge_None.
Qed.
Lemma hidden_agree vs vs' act p : Forall2 node_agree vs vs' -> hidden_error vs' act p = hidden_error vs act p.
Proof.
  intros HN. unfold hidden_error. destruct (fleb _ _); [done|]. generalize fzero. induction act as [|[q d] act IH]; intros z; [done|].
  cbn [fold_left]. by rewrite (weight_agree _ _ _ _ HN), IH.
Qed.
Lemma errors_agree batch lvs lvs' lab outs ds : Forall2 agree lvs lvs' -> errors batch lvs' lab outs ds -> errors batch lvs lab outs ds.
Proof.
  intros HA [H1 H2]. split; [by rewrite H1, (Forall2_length _ _ _ HA)|]. intros j out d Ho Hd. rewrite (H2 _ _ _ Ho Hd).
  destruct (lvs !! S j) as [lv|] eqn:El.
  - destruct (Forall2_lookup_l _ _ _ _ _ HA El) as (lv' & -> & (_ & HN)). destruct (outs !! S (S j)) as [out'|]; [|done]. destruct (ds !! S j) as [d'|]; [|done].
    apply map_ext. intros p. by apply hidden_agree.
  - replace (lvs' !! S j) with (@None LayerView); [done|]. symmetry. apply lookup_ge_None. rewrite <- (Forall2_length _ _ _ HA). by apply lookup_ge_None.
Qed.
Lemma pass_agree E batch lvs lvs' sps ex p : Forall2 agree lvs lvs' -> pass_of E batch lvs' sps ex p -> pass_of E batch lvs sps ex p.
Proof. intros HA (H1 & H2 & H3). split; [by eapply inference_agree|]. split; [by eapply errors_agree|done]. Qed.

(** With Adam the passes of all examples of a batch are those of the layers before the batch. *)
Definition accumulated (ps : list pass) (j k : nat) (v v' : NodeView) : Prop :=
  identity v' = identity v /\
  learned v' = (v_w v, v_mom v, v_vel v, weight_gradient ps j k (v_t v),
    [v_bias v; bias_gradient ps j k (v_tBias v); v_momBias v; v_velBias v; v_mirrorBias v]).
Lemma kept_nodes lvs lvs' j lv k v : Forall2 layer_kept lvs lvs' -> lvs !! j = Some lv -> lv_nodes lv !! k = Some v ->
  exists lv' v', lvs' !! j = Some lv' /\ lv_nodes lv' !! k = Some v'.
Proof.
  intros HK Hlv Hv. destruct (Forall2_lookup_l _ _ _ _ _ HK Hlv) as (lv' & Hlv' & H). exists lv'.
  destruct (lookup_lt_is_Some_2 (lv_nodes lv') k) as [v' Hv']; [rewrite (lk_nodes _ _ H); by eapply lookup_lt_Some|]. eauto.
Qed.
Lemma trains_batch E batch sps lr exs lvs lvs' : e_UseAdam E = true -> trains E batch sps lr exs lvs lvs' ->
  Forall2 layer_kept lvs lvs' /\ exists ps, Forall2 (pass_of E batch lvs sps) exs ps /\
  forall j lv lv' k v v', lvs !! j = Some lv -> lvs' !! j = Some lv' -> lv_nodes lv !! k = Some v -> lv_nodes lv' !! k = Some v' -> accumulated ps j k v v'.
Proof.
  intros HE H. split; [by eapply trains_kept|]. induction H as [lvs|exs ex lvs lvs1 lvs2 HT IH HS].
  - exists []. split; [by constructor|]. intros j lv lv' k v v' H1 H2 H3 H4. simplify_eq. split; [done|]. unfold learned. cbn. done.
  - destruct (IH) as (ps & HP & HA). clear IH. pose proof (trains_kept _ _ _ _ _ _ _ HT) as HK1. destruct (step_pass _ _ _ _ _ _ _ HS) as (HK & p & Hp & HN).
    exists (ps ++ [p]). split.
    + apply Forall2_app; [done|]. constructor; [|by constructor]. eapply pass_agree; [|exact Hp].
      apply Forall2_same_length_lookup. split; [exact (Forall2_length _ _ _ HK1)|]. intros j lv lv1 Hlv Hlv1. split; [exact (Forall2_lookup_lr _ _ _ _ _ _ HK1 Hlv Hlv1)|].
      apply Forall2_same_length_lookup. split; [symmetry; apply (lk_nodes _ _ (Forall2_lookup_lr _ _ _ _ _ _ HK1 Hlv Hlv1))|].
      intros k v v1 Hv Hv1. destruct (HA _ _ _ _ _ _ Hlv Hlv1 Hv Hv1) as [Hid Hle]. unfold learned, identity in *. injection Hle as ? _ _ _ ? _ _ _ _. injection Hid as ? _ _. done.
    + intros j lv lv2 k v v2 Hlv Hlv2 Hv Hv2. destruct (kept_nodes _ _ _ _ _ _ HK1 Hlv Hv) as (lv1 & v1 & Hlv1 & Hv1).
      destruct (HA _ _ _ _ _ _ Hlv Hlv1 Hv Hv1) as [Hid Hle]. destruct (HN _ _ _ _ _ _ Hlv1 Hlv2 Hv1 Hv2) as [Hid2 Hle2]. split; [congruence|].
      rewrite Hle2. unfold weight_gradient, bias_gradient. rewrite !fold_left_app. cbn [fold_left]. fold (weight_gradient ps j k (v_t v)) (bias_gradient ps j k (v_tBias v)).
      unfold learned in Hle. injection Hle as E1 E2 E3 E4 E5 E6 E7 E8 E9.
      destruct (error_of p j k) as [d|]; unfold learned, gradient; rewrite ?HE; cbn; by rewrite E1, E2, E3, E4, E5, E6, E7, E8, E9.
Qed.

Lemma accumulate_length f xs cur : length (accumulate f xs cur) = length xs.
Proof. unfold accumulate. revert xs. induction cur as [|q cur IH]; intros xs; [done|]. cbn [fold_left]. rewrite IH. by rewrite alter_length. Qed.
Lemma weight_gradient_length ps j k t : length (weight_gradient ps j k t) = length t.
Proof. unfold weight_gradient. revert t. induction ps as [|p ps IH]; intros t; [done|]. cbn [fold_left]. rewrite IH. destruct (error_of p j k); [apply accumulate_length|done]. Qed.

Lemma zeros_replicate t : Forall (eq fzero) t -> t = replicate (length t) fzero.
Proof. intros H. symmetry. apply replicate_as_elem_of. split; [done|]. intros x Hx. rewrite Forall_forall in H. symmetry. by apply H. Qed.
Lemma updated_step lr ps j k v v1 v' : Forall (eq fzero) (v_t v) -> v_tBias v = fzero -> length (v_t v) = length (v_w v) ->
  length (v_mom v) = length (v_w v) -> length (v_vel v) = length (v_w v) ->
  accumulated ps j k v v1 -> adam_updated lr v1 v' ->
  adam_step lr (weight_gradient ps j k (replicate (length (v_w v)) fzero)) (bias_gradient ps j k fzero) v v' /\ identity v' = identity v.
Proof.
  intros Ht Htb Hlt Hlm Hlv [Hid Hle] [(L1 & L2 & L3 & L4) AT (B1 & B2 & B3 & B4 & B5) [HI _]].
  apply zeros_replicate in Ht. rewrite Hlt in Ht. unfold learned in Hle. injection Hle as E1 E2 E3 E4 E5 E6 E7 E8 E9.
  rewrite <- Ht. rewrite <- Htb. split; [|congruence]. constructor.
  - rewrite weight_gradient_length. rewrite E1 in L1. rewrite E2 in L2. rewrite E3 in L3. split; [lia|]. split; [lia|]. split; lia.
  - intros i g mo ve w Hg Hm Hv Hw. rewrite <- E4 in Hg. rewrite <- E2 in Hm. rewrite <- E3 in Hv. rewrite <- E1 in Hw.
    destruct (AT _ _ _ _ _ Hg Hm Hv Hw) as (_ & A1 & A2 & A3). done.
  - rewrite B2, B3, B1, E5, E6, E7, E8. done.
Qed.

(** A node before and after a training call. *)
Lemma batch_call E num sizes types batch inputDim k l rp sparsity lr exs iter rehash rebuild nv lvs' :
  e_UseAdam E = true -> net_shape E num sizes types batch inputDim k l rp nv ->
  Forall (fun lv => Forall (settled (e_UseAdam E)) (lv_nodes lv)) (nv_layers nv) ->
  training_call E batch sparsity lr exs iter rehash rebuild (nv_layers nv) lvs' ->
  exists lvs ps, reshuffled iter (nv_layers nv) lvs /\ Forall2 (pass_of E batch lvs sparsity) exs ps /\
    forall j lv lv' i v v', nv_layers nv !! j = Some lv -> lvs' !! j = Some lv' ->
      lv_nodes lv !! i = Some v -> lv_nodes lv' !! i = Some v' ->
      identity v' = identity v /\
      adam_step (learning_rate E lr iter) (weight_gradient ps j i (replicate (length (v_w v)) fzero)) (bias_gradient ps j i fzero) v v'.
Proof.
  intros HE [_ HS] HZ (lvs1 & lvs2 & HR & HT & Hlen & HU).
  destruct (trains_batch _ _ _ _ _ _ _ HE HT) as (HK & ps & HPS & HA).
  exists lvs1, ps. split; [done|]. split; [done|].
  intros j lv lv' i v v' Hlv Hlv' Hv Hv'.
  destruct HR as [HR _]. destruct (Forall2_lookup_l _ _ _ _ _ HR Hlv) as (lv1 & Hlv1 & (r & Hr & _)).
  assert (Hv1 : lv_nodes lv1 !! i = Some v) by (rewrite Hr; exact Hv).
  destruct (kept_nodes _ _ _ _ _ _ HK Hlv1 Hv1) as (lv2 & v2 & Hlv2 & Hv2). specialize (HA _ _ _ _ _ _ Hlv1 Hlv2 Hv1 Hv2).
  destruct (HU _ _ _ Hlv2 Hlv') as (sp & _ & HLU). pose proof (Forall2_lookup_lr _ _ _ _ _ _ (lu_nodes _ _ _ _ _ _ _ HLU) Hv2 Hv') as HUv.
  rewrite HE in HUv. cbn [updated] in HUv.
  destruct (HS _ _ Hlv) as (size & prev & ty & kj & lj & rj & _ & _ & _ & _ & _ & _ & SH). pose proof (ss_nodes _ _ _ _ _ _ _ _ _ SH _ _ Hv) as NS.
  destruct (sh_adam _ _ _ _ _ _ NS) as (A1 & A2 & A3). rewrite HE in A1, A2, A3. pose proof (sh_w _ _ _ _ _ _ NS) as AW.
  rewrite Forall_forall in HZ. pose proof (HZ lv (elem_of_list_lookup_2 _ _ _ Hlv)) as HZv. rewrite Forall_forall in HZv. specialize (HZv v (elem_of_list_lookup_2 _ _ _ Hv)).
  rewrite HE in HZv. destruct HZv as [Z1 Z2].
  destruct (updated_step _ ps j i v v2 v' Z1 Z2 ltac:(lia) ltac:(lia) ltac:(lia) HA HUv). done.
Qed.
Lemma batch_training E c num sizes types batch lr inputDim k l rp sparsity m n m' os n' m'' exs iter rehash rebuild ins n'' m3 :
  e_LoadWeight E = false -> e_UseAdam E = true -> dims_ok E num sizes batch inputDim ->
  network_New E c num sizes types batch lr inputDim k l rp sparsity m = Ok (n, m') ->
  call_ops E c n os m' = Ok (n', m'') ->
  network_ProcessInput E c n exs iter rehash rebuild m'' = Ok ((ins, n''), m3) ->
  exists nv nv' lvs ps, live E m'' c n nv /\ live E m3 c n nv' /\ reshuffled iter (nv_layers nv) lvs /\
    Forall2 (pass_of E batch lvs sparsity) exs ps /\
    forall j lv lv' i v v', nv_layers nv !! j = Some lv -> nv_layers nv' !! j = Some lv' ->
      lv_nodes lv !! i = Some v -> lv_nodes lv' !! i = Some v' ->
      identity v' = identity v /\
      adam_step (learning_rate E lr iter) (weight_gradient ps j i (replicate (length (v_w v)) fzero)) (bias_gradient ps j i fzero) v v'.
Proof.
  intros HL HE HD HN HO HP.
  destruct (shape_calls _ _ _ _ _ _ _ _ _ _ _ _ _ _ _ _ _ _ HL HD HN HO) as (_ & nv0 & L0 & HS & HZ).
  destruct (training_done _ _ _ _ _ _ _ _ _ _ _ _ _ _ _ _ _ _ _ _ _ _ _ _ _ HL HD HN HO HP) as (_ & nv & nv' & L & L' & HT & _).
  rewrite <- (live_unique _ _ _ _ _ _ L L0) in HS, HZ. clear nv0 L0.
  destruct (batch_call _ _ _ _ _ _ _ _ _ _ _ _ _ _ _ _ _ HE HS HZ HT) as (lvs & ps & H1 & H2 & H3). eauto 10.
Qed.

(** Without Adam *)
Lemma trains_sgd E batch sps lr exs lvs lvs' : e_UseAdam E = false -> trains E batch sps lr exs lvs lvs' ->
  exists ps, sgd_passes E batch sps lr lvs exs ps /\ sgd_layers lr ps lvs lvs' /\
  forall j lv lv' k v v', lvs !! j = Some lv -> lvs' !! j = Some lv' -> lv_nodes lv !! k = Some v -> lv_nodes lv' !! k = Some v' ->
    v_mirrorBias v' = sgd_bias lr ps j k (v_mirrorBias v).
Proof.
  intros HE H. induction H as [lvs|exs ex lvs lvs1 lvs2 HT IH HS].
  - exists []. split; [split; [done|]; intros i ex p Hi; done|]. split.
    + split; [exact (trains_kept _ _ _ _ _ _ _ (trains_nil E batch sps lr lvs))|]. intros j lv lv' k v v' H1 H2 H3 H4. simplify_eq. done.
    + intros j lv lv' k v v' H1 H2 H3 H4. simplify_eq. done.
  - destruct IH as (ps & [HL HP] & [HK1 HA] & HM). destruct (step_pass _ _ _ _ _ _ _ HS) as (HK & p & Hp & HN).
    pose proof (trains_kept _ _ _ _ _ _ _ (trains_snoc _ _ _ _ _ _ _ _ _ HT HS)) as HK2.
    exists (ps ++ [p]). split; [|split].
    + split; [rewrite !app_length; cbn; lia|]. intros i ex' p' Hi Hpi. destruct (decide (i < length exs)%nat) as [Hlt|Hge].
      * rewrite lookup_app_l in Hi by lia. rewrite lookup_app_l in Hpi by lia. rewrite take_app_le by lia. by apply HP.
      * assert (i = length exs) as ->. { apply lookup_lt_Some in Hi. rewrite app_length in Hi. cbn in Hi. lia. }
        rewrite list_lookup_middle in Hi by done. rewrite list_lookup_middle in Hpi by done. injection Hi as <-. injection Hpi as <-.
        rewrite <- HL, take_app. exists lvs1. done.
    + split; [done|]. intros j lv lv2 k v v2 Hlv Hlv2 Hv Hv2. destruct (kept_nodes _ _ _ _ _ _ HK1 Hlv Hv) as (lv1 & v1 & Hlv1 & Hv1).
      destruct (HA _ _ _ _ _ _ Hlv Hlv1 Hv Hv1) as (W & B & I). destruct (HN _ _ _ _ _ _ Hlv1 Hlv2 Hv1 Hv2) as [I2 Hle].
      unfold sgd_weights. rewrite fold_left_app. cbn [fold_left]. fold (sgd_weights lr ps j k (v_w v)). rewrite <- W, <- B.
      unfold learned in Hle. injection Hle as E1 _ _ _ E5 _ _ _ _. rewrite E1, E5. split; [|split; [|congruence]]; destruct (error_of p j k); unfold gradient; rewrite ?HE; done.
    + intros j lv lv2 k v v2 Hlv Hlv2 Hv Hv2. destruct (kept_nodes _ _ _ _ _ _ HK1 Hlv Hv) as (lv1 & v1 & Hlv1 & Hv1).
      pose proof (HM _ _ _ _ _ _ Hlv Hlv1 Hv Hv1) as M. destruct (HN _ _ _ _ _ _ Hlv1 Hlv2 Hv1 Hv2) as [_ Hle].
      unfold sgd_bias. rewrite fold_left_app. cbn [fold_left]. fold (sgd_bias lr ps j k (v_mirrorBias v)). rewrite <- M.
      unfold learned in Hle. injection Hle as _ _ _ _ _ _ _ _ E9. rewrite E9. destruct (error_of p j k); unfold gradient; rewrite ?HE; done.
Qed.

Lemma sgd_call E batch sparsity lr exs iter rehash rebuild nv lvs' :
  e_UseAdam E = false -> Forall (fun lv => Forall (settled (e_UseAdam E)) (lv_nodes lv)) (nv_layers nv) ->
  training_call E batch sparsity lr exs iter rehash rebuild (nv_layers nv) lvs' ->
  exists lvs ps, reshuffled iter (nv_layers nv) lvs /\ sgd_passes E batch sparsity (learning_rate E lr iter) lvs exs ps /\
    forall j lv lv' i v v', nv_layers nv !! j = Some lv -> lvs' !! j = Some lv' ->
      lv_nodes lv !! i = Some v -> lv_nodes lv' !! i = Some v' ->
      identity v' = identity v /\ v_w v' = sgd_weights (learning_rate E lr iter) ps j i (v_w v) /\ v_bias v' = sgd_bias (learning_rate E lr iter) ps j i (v_bias v).
Proof.
  intros HE HZ (lvs1 & lvs2 & HR & HT & Hlen & HU).
  destruct (trains_sgd _ _ _ _ _ _ _ HE HT) as (ps & HPS & [HK HA] & HM).
  exists lvs1, ps. split; [done|]. split; [done|].
  intros j lv lv' i v v' Hlv Hlv' Hv Hv'.
  destruct HR as [HR _]. destruct (Forall2_lookup_l _ _ _ _ _ HR Hlv) as (lv1 & Hlv1 & (r & Hr & _)).
  assert (Hv1 : lv_nodes lv1 !! i = Some v) by (rewrite Hr; exact Hv).
  destruct (kept_nodes _ _ _ _ _ _ HK Hlv1 Hv1) as (lv2 & v2 & Hlv2 & Hv2). destruct (HA _ _ _ _ _ _ Hlv1 Hlv2 Hv1 Hv2) as (W & B & I).
  specialize (HM _ _ _ _ _ _ Hlv1 Hlv2 Hv1 Hv2).
  destruct (HU _ _ _ Hlv2 Hlv') as (sp & _ & HLU). pose proof (Forall2_lookup_lr _ _ _ _ _ _ (lu_nodes _ _ _ _ _ _ _ HLU) Hv2 Hv') as HUv.
  rewrite HE in HUv. cbn [updated] in HUv.
  rewrite Forall_forall in HZ. pose proof (HZ lv (elem_of_list_lookup_2 _ _ _ Hlv)) as HZv. rewrite Forall_forall in HZv. specialize (HZv v (elem_of_list_lookup_2 _ _ _ Hv)).
  rewrite HE in HZv. cbn [settled] in HZv. rewrite HUv, HZv, <- HM. split; [exact I|]. split; [exact W|done].
Qed.
Lemma sgd_training E c num sizes types batch lr inputDim k l rp sparsity m n m' os n' m'' exs iter rehash rebuild ins n'' m3 :
  e_LoadWeight E = false -> e_UseAdam E = false -> dims_ok E num sizes batch inputDim ->
  network_New E c num sizes types batch lr inputDim k l rp sparsity m = Ok (n, m') ->
  call_ops E c n os m' = Ok (n', m'') ->
  network_ProcessInput E c n exs iter rehash rebuild m'' = Ok ((ins, n''), m3) ->
  exists nv nv' lvs ps, live E m'' c n nv /\ live E m3 c n nv' /\ reshuffled iter (nv_layers nv) lvs /\
    sgd_passes E batch sparsity (learning_rate E lr iter) lvs exs ps /\
    forall j lv lv' i v v', nv_layers nv !! j = Some lv -> nv_layers nv' !! j = Some lv' ->
      lv_nodes lv !! i = Some v -> lv_nodes lv' !! i = Some v' ->
      identity v' = identity v /\ v_w v' = sgd_weights (learning_rate E lr iter) ps j i (v_w v) /\ v_bias v' = sgd_bias (learning_rate E lr iter) ps j i (v_bias v).
Proof.
  intros HL HE HD HN HO HP.
  destruct (shape_calls _ _ _ _ _ _ _ _ _ _ _ _ _ _ _ _ _ _ HL HD HN HO) as (_ & nv0 & L0 & _ & HZ).
  destruct (training_done _ _ _ _ _ _ _ _ _ _ _ _ _ _ _ _ _ _ _ _ _ _ _ _ _ HL HD HN HO HP) as (_ & nv & nv' & L & L' & HT & _).
  rewrite <- (live_unique _ _ _ _ _ _ L L0) in HZ. clear nv0 L0.
  destruct (sgd_call _ _ _ _ _ _ _ _ _ _ HE HZ HT) as (lvs & ps & H1 & H2 & H3). eauto 10.
Qed.

(** Locality *)
Lemma accumulate_other f xs cur q : q ∉ map (fun x => Z.to_nat (iv_index x)) cur -> accumulate f xs cur !! q = xs !! q.
Proof.
  unfold accumulate. revert xs. induction cur as [|p cur IH]; intros xs Hq; [done|]. cbn [map fold_left] in *. apply not_elem_of_cons in Hq as [H1 H2].
  rewrite IH by done. by apply list_lookup_alter_ne.
Qed.
Lemma fold_untouched (g : pass -> float64 -> float64 -> float64) ps j k q w : ~ touched ps j k q ->
  fold_left (fun w p => match error_of p j k with Some d => accumulate (g p d) w (inputs_of p j) | None => w end) ps w !! q = w !! q.
Proof.
  revert w. induction ps as [|p ps IH]; intros w HT; [done|]. cbn [fold_left]. rewrite IH.
  - destruct (error_of p j k) as [d|] eqn:Ed; [|done]. apply accumulate_other. intros Hq. apply HT. exists p. split; [by left|]. split; [by rewrite Ed|done].
  - intros (p' & H1 & H2). apply HT. exists p'. split; [by right|done].
Qed.
Lemma fold_inactive {A} (g : pass -> A -> float64 -> A) ps j k (w : A) : ~ active_in ps j k ->
  fold_left (fun w p => match error_of p j k with Some d => g p w d | None => w end) ps w = w.
Proof.
  revert w. induction ps as [|p ps IH]; intros w HT; [done|]. cbn [fold_left]. rewrite IH.
  - destruct (error_of p j k) as [d|] eqn:Ed; [|done]. exfalso. apply HT. exists p. split; [by left|by rewrite Ed].
  - intros (p' & H1 & H2). apply HT. exists p'. split; [by right|done].
Qed.
Lemma sgd_untouched lr ps j k q w : ~ touched ps j k q -> sgd_weights lr ps j k w !! q = w !! q.
Proof. apply (fold_untouched (fun _ d a => fmul lr (fmul d a))). Qed.
Lemma gradient_untouched ps j k q t : ~ touched ps j k q -> weight_gradient ps j k t !! q = t !! q.
Proof. apply (fold_untouched (fun _ d => fmul d)). Qed.
Lemma sgd_inactive lr ps j k w b : ~ active_in ps j k -> sgd_weights lr ps j k w = w /\ sgd_bias lr ps j k b = b.
Proof.
  intros H. split; [exact (fold_inactive (fun p w d => accumulate (fun a => fmul lr (fmul d a)) w (inputs_of p j)) ps j k w H)|].
  exact (fold_inactive (fun _ b d => fadd b (if bool_decide (j = 0%nat) then fadd lr d else fmul lr d)) ps j k b H).
Qed.
Lemma gradient_inactive ps j k t tb : ~ active_in ps j k -> weight_gradient ps j k t = t /\ bias_gradient ps j k tb = tb.
Proof.
  intros H. split; [exact (fold_inactive (fun p t d => accumulate (fmul d) t (inputs_of p j)) ps j k t H)|].
  exact (fold_inactive (fun _ b d => fadd b d) ps j k tb H).
Qed.
