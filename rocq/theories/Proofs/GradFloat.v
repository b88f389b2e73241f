(** C77, over binary64: the passes of the code are the generic ones. *)

From Verif.Proofs Require Import DenseProofs NetCalls BatchProofs.
From Verif.Spec Require Import TrainSpec BatchSpec GradSpec.
From Coq Require Import Lia.
Local Open Scope Z_scope.

Section Code.
  Context (E : env).
  Notation FA := (floats E).
  Definition unit_of (lv : LayerView) (id : Z) : unit_ FA :=
    (id, from_option v_w [] (lv_nodes lv !! Z.to_nat id), from_option v_bias fzero (lv_nodes lv !! Z.to_nat id)).
  Lemma net_input_F cur id w b : net_input FA (map unpair cur) (id, w, b) = fadd (dot w cur) b.
  Proof.
    unfold net_input, dot. cbn [add zero mul floats num u_b snd]. f_equal.
    assert (X : forall s, fold_left (fun s p => fadd s (fmul (weight FA (id, w, b) p.1) p.2)) (map unpair cur) s =
      fold_left (fun s p => fadd s (fmul (default fzero (w !! Z.to_nat (iv_index p))) (iv_value p))) cur s); [|apply X].
    induction cur as [|p cur IH]; intros s; [reflexivity|]. cbn [map fold_left]. rewrite IH. reflexivity.
  Qed.
  Lemma activations_F lv ty cur ids acts : Forall (fun v => v_type v = ty) (lv_nodes lv) -> activations lv cur ids acts ->
    acts = map (fun a => match ty with ReLU => relu FA a | _ => a end) (map (net_input FA (map unpair cur)) (map (unit_of lv) ids)).
  Proof.
    intros HT. induction 1 as [|id a ids acts (_ & v & Hv & Ha) _ IH]; [reflexivity|]. cbn [map]. f_equal; [|exact IH].
    apply DenseProofs.activation_value in Ha as ->. unfold unit_of. rewrite Hv. cbn [from_option]. rewrite net_input_F. unfold node_value.
    rewrite (Forall_lookup_1 _ _ _ _ HT Hv). reflexivity.
  Qed.
  Lemma zip_pairs ids acts : map unpair (zip_with mkPair ids acts) = zip ids acts.
  Proof. revert acts. induction ids as [|i ids IH]; intros [|a acts]; [done..|]. cbn. by rewrite IH. Qed.
  Lemma zip_indexes ids acts : length acts = length ids -> map iv_index (zip_with mkPair ids acts) = ids.
  Proof. revert acts. induction ids as [|i ids IH]; intros [|a acts] H; [done..|]. cbn in *. rewrite IH; [done|lia]. Qed.
  Lemma unit_ids lv ids : map (u_id FA) (map (unit_of lv) ids) = ids.
  Proof. rewrite map_map. apply map_id. Qed.
  Lemma relu_F lv cur ids out : lv_type lv = ReLU -> Forall (fun v => v_type v = ReLU) (lv_nodes lv) -> layer_output E lv cur ids out ->
    map iv_index out = ids /\ map unpair out = relu_layer FA (map (unit_of lv) ids) (map unpair cur).
  Proof.
    intros T1 T2 (acts & HA & HO). rewrite T1 in HO. cbn [is_softmax] in HO. pose proof (Forall2_length _ _ _ HA) as HL. subst out.
    split; [apply zip_indexes; by rewrite HL|]. rewrite zip_pairs. unfold relu_layer. rewrite unit_ids. f_equal.
    exact (activations_F lv ReLU cur ids acts T2 HA).
  Qed.
  Lemma softmax_F lv cur ids out : lv_type lv = Softmax -> Forall (fun v => v_type v = Softmax) (lv_nodes lv) -> layer_output E lv cur ids out ->
    map iv_index out = ids /\ map unpair out = softmax_layer FA (map (unit_of lv) ids) (map unpair cur).
  Proof.
    intros T1 T2 (acts & HA & HO). rewrite T1 in HO. cbn [is_softmax] in HO. pose proof (Forall2_length _ _ _ HA) as HL.
    destruct HO as (mx & HG & ->). split; [apply zip_indexes; unfold exps; by rewrite map_length|].
    rewrite zip_pairs. unfold softmax_layer. rewrite unit_ids. f_equal.
    pose proof (activations_F lv Softmax cur ids acts T2 HA) as X. cbn in X. rewrite map_id in X. transitivity (exponentials FA acts); [|by f_equal].
    unfold exps, exponentials. rewrite (greatest_unique _ _ _ HG (fmax_greatest acts)). reflexivity.
  Qed.
  Lemma out_error_F batch lab norm p : output_error batch lab norm p = out_error FA batch lab norm (unpair p).
  Proof. reflexivity. Qed.
  Lemma back_error_F lv (out : list Pair) (d : list float64) p :
    hidden_error (lv_nodes lv) (zip out d) p = back_error FA (zip (map (unit_of lv) (map iv_index out)) d) (unpair p).
  Proof.
    unfold hidden_error, back_error. cbn [GradSpec.le floats zero num unpair fst snd add mul]. destruct (fleb (iv_value p) fzero); [reflexivity|].
    generalize fzero as s. revert d. induction out as [|q out IH]; intros [|x d] s; [reflexivity..|]. cbn [map zip zip_with fold_left].
    rewrite <- IH. f_equal. f_equal. f_equal. unfold weight_of, weight, unit_of. cbn [u_w fst snd].
    destruct (lv_nodes lv !! Z.to_nat (iv_index q)) as [v|]; reflexivity.
  Qed.

  Lemma inference_cons lv lvs sps off lab feats outs : inference E (lv :: lvs) sps off lab feats outs ->
    exists out outs' sp ids, outs = feats :: out :: outs' /\ sps !! off = Some sp /\ chosen E lv feats lab sp ids /\ layer_output E lv feats ids out /\
      inference E lvs sps (S off) lab out (out :: outs').
  Proof.
    intros (HL & H0 & HI). destruct outs as [|f [|out outs']]; [done..|]. injection H0 as ->.
    destruct (HI 0%nat lv feats out eq_refl eq_refl eq_refl) as (sp & ids & Hsp & HC & HO). rewrite Nat.add_0_r in Hsp.
    exists out, outs', sp, ids. do 4 (split; [done|]). split; [cbn in *; lia|]. split; [done|].
    intros j lv' cur out' H1 H2 H3. destruct (HI (S j) lv' cur out' H1 H2 H3) as (sp' & ids' & Hsp' & HC' & HO').
    exists sp', ids'. split; [|done]. rewrite <- Hsp'. f_equal. lia.
  Qed.
  Lemma errors_cons batch lv lvs lab feats out outs ds : errors batch (lv :: lvs) lab (feats :: out :: outs) ds ->
    exists d ds', ds = d :: ds' /\ errors batch lvs lab (out :: outs) ds' /\
      d = match lvs, outs, ds' with
          | lv' :: _, out' :: _, d' :: _ => map (hidden_error (lv_nodes lv') (zip out' d')) out
          | _, _, _ => map (output_error batch lab (fold_left fadd (map iv_value out) fzero)) out
          end.
  Proof.
    intros (HL & H). destruct ds as [|d ds']; [done|]. exists d, ds'. split; [done|]. split.
    - split; [cbn in HL; lia|]. intros j o x Ho Hx. exact (H (S j) o x Ho Hx).
    - rewrite (H 0%nat out d eq_refl eq_refl). destruct lvs as [|lv' lvs], outs as [|out' outs], ds' as [|d' ds']; reflexivity.
  Qed.
  Lemma relu_softmax_cons lv lv' lvs : relu_softmax (lv :: lv' :: lvs) ->
    lv_type lv = ReLU /\ Forall (fun v => v_type v = ReLU) (lv_nodes lv) /\ relu_softmax (lv' :: lvs).
  Proof.
    intros [_ H]. pose proof (H 0%nat lv eq_refl) as H0. rewrite bool_decide_false in H0 by (cbn; lia). destruct H0 as [H1 H2].
    split; [done|]. split; [done|]. split; [done|]. intros j l Hl. specialize (H (S j) l Hl).
    rewrite (bool_decide_ext (S j = length (lv' :: lvs)) (S (S j) = length (lv :: lv' :: lvs))) by (cbn; lia). exact H.
  Qed.
  Lemma passes_F batch lab sps lvs : forall off feats outs ds, relu_softmax lvs ->
    inference E lvs sps off lab feats outs -> errors batch lvs lab outs ds ->
    let net := active_net E lvs (map (map iv_index) (tail outs)) in
    map (map unpair) outs = forward FA net (map unpair feats) /\ ds = backward FA batch lab net (map unpair feats).
  Proof.
    induction lvs as [|lv lvs IH]; intros off feats outs ds HT HI HE; [by destruct HT|].
    destruct (inference_cons _ _ _ _ _ _ _ HI) as (out & outs' & sp & ids & -> & _ & _ & HO & HI').
    destruct (errors_cons _ _ _ _ _ _ _ _ HE) as (d & ds' & -> & HE' & Hd).
    destruct lvs as [|lv' lvs].
    - destruct HI' as (HL & _ & _). destruct outs'; [|done]. destruct HT as [_ HT]. pose proof (HT 0%nat lv eq_refl) as H0.
      rewrite bool_decide_true in H0 by done. destruct H0 as [T1 T2]. destruct (softmax_F lv feats ids out T1 T2 HO) as [O1 O2].
      destruct HE' as [HL' _]. destruct ds'; [|done]. cbn [tail map active_net zip_with]. unfold active_net. cbn [zip_with].
      rewrite O1. fold (unit_of lv). change (map (fun id => _) ids) with (map (unit_of lv) ids).
      split.
      + cbn [forward]. f_equal. f_equal. exact O2.
      + change (backward FA batch lab [map (unit_of lv) ids] (map unpair feats)) with
          [map (out_error FA batch lab (fold_left fadd (map snd (softmax_layer FA (map (unit_of lv) ids) (map unpair feats))) fzero))
               (softmax_layer FA (map (unit_of lv) ids) (map unpair feats))].
        rewrite <- O2, Hd, !map_map. reflexivity.
    - destruct (relu_softmax_cons _ _ _ HT) as (T1 & T2 & HT'). destruct (relu_F lv feats ids out T1 T2 HO) as [O1 O2].
      specialize (IH (S off) out (out :: outs') ds' HT' HI' HE').
      destruct (inference_cons _ _ _ _ _ _ _ HI') as (out2 & outs2 & _ & _ & [= ->] & _).
      cbn [tail map] in IH |- *. set (rest := active_net E (lv' :: lvs) _) in IH.
      change (active_net E (lv :: lv' :: lvs) (map iv_index out :: map iv_index out2 :: map (map iv_index) outs2)) with
        (map (unit_of lv) (map iv_index out) :: rest).
      assert (HR : rest = map (unit_of lv') (map iv_index out2) :: active_net E lvs (map (map iv_index) outs2)) by reflexivity.
      rewrite O1. destruct IH as [IH1 IH2].
      assert (F1 : forward FA (map (unit_of lv) ids :: rest) (map unpair feats) = map unpair feats :: forward FA rest (map unpair out)).
      { rewrite O2, HR. reflexivity. }
      assert (F2 : backward FA batch lab (map (unit_of lv) ids :: rest) (map unpair feats) =
                   map (back_error FA (zip (map (unit_of lv') (map iv_index out2)) (default [] (head (backward FA batch lab rest (map unpair out)))))) (map unpair out)
                   :: backward FA batch lab rest (map unpair out)).
      { rewrite O2, HR. reflexivity. }
      rewrite F1, F2, <- IH1, <- IH2. split; [done|]. f_equal. destruct HE' as [HL' _]. destruct ds' as [|d' ds']; [done|].
      cbn [head default]. rewrite Hd, map_map. apply map_ext. intros p. apply back_error_F.
  Qed.
End Code.
Lemma code_pass E batch lvs sparsity ex p : relu_softmax lvs -> pass_of E batch lvs sparsity ex p -> generic_pass E batch lvs ex p.
Proof. intros HT (HI & HE & _). exact (passes_F E batch (labels ex) sparsity lvs 0 _ _ _ HT HI HE). Qed.
Lemma code_step E lr d cur w : accumulate (fun a => fmul lr (fmul d a)) w cur = stepped (floats E) lr d (map unpair cur) w.
Proof.
  unfold accumulate, stepped. cbn [add mul floats num]. revert w. induction cur as [|q cur IH]; intros w; [reflexivity|].
  cbn [map fold_left]. by rewrite <- IH.
Qed.

(** * Training calls *)
Lemma shape_types E num sizes types batch inputDim k l rp nv : usual_types num types ->
  net_shape E num sizes types batch inputDim k l rp nv -> relu_softmax (nv_layers nv).
Proof.
  intros [Hn HU] [HN HS]. split; [intros E0; rewrite E0 in HN; cbn in HN; lia|]. intros j lv Hj.
  destruct (HS j lv Hj) as (size & prev & ty & kj & lj & rj & _ & _ & Ht & _ & _ & _ & SH). pose proof (lookup_lt_Some _ _ _ Hj) as Hlt.
  rewrite (HU j) in Ht by lia. injection Ht as <-.
  assert (B : bool_decide (Z.of_nat (S j) = num) = bool_decide (S j = length (nv_layers nv))) by (apply bool_decide_ext; lia).
  rewrite B in SH. split; [exact (ss_type _ _ _ _ _ _ _ _ _ SH)|]. apply Forall_lookup. intros i v Hv.
  pose proof (sh_identity _ _ _ _ _ _ (ss_nodes _ _ _ _ _ _ _ _ _ SH i v Hv)) as HI. by injection HI.
Qed.
(** Layers with the same types, weights and biases. *)
Definition same_params (lvs lvs' : list LayerView) : Prop :=
  Forall2 (fun lv lv' => lv_type lv' = lv_type lv /\ Forall2 (fun v v' => v_type v' = v_type v /\ v_w v' = v_w v /\ v_bias v' = v_bias v) (lv_nodes lv) (lv_nodes lv')) lvs lvs'.
Lemma same_active E lvs lvs' idss : same_params lvs lvs' -> active_net E lvs' idss = active_net E lvs idss.
Proof.
  unfold active_net. intros H. revert idss. induction H as [|lv lv' lvs lvs' [_ H] _ IH]; intros [|ids idss]; [done..|]. cbn [zip_with].
  f_equal; [|apply IH]. apply map_ext. intros id. destruct (lv_nodes lv !! Z.to_nat id) as [v|] eqn:E1.
  - destruct (Forall2_lookup_l _ _ _ _ _ H E1) as (v' & -> & _ & W & B). cbn. by rewrite W, B.
  - assert (E2 : lv_nodes lv' !! Z.to_nat id = None). { apply lookup_ge_None. apply lookup_ge_None in E1. by rewrite <- (Forall2_length _ _ _ H). }
    by rewrite E2.
Qed.
Lemma same_types lvs lvs' : same_params lvs lvs' -> relu_softmax lvs -> relu_softmax lvs'.
Proof.
  intros H [HN HT]. pose proof (Forall2_length _ _ _ H) as HL. split; [by destruct lvs, lvs'|]. intros j lv' Hj.
  destruct (Forall2_lookup_r _ _ _ _ _ H Hj) as (lv & Hlv & T & HV). rewrite <- HL, T. destruct (HT j lv Hlv) as [T1 T2]. split; [done|].
  apply Forall_lookup. intros i v' Hv'. destruct (Forall2_lookup_r _ _ _ _ _ HV Hv') as (v & Hv & T' & _). rewrite T'. by apply (Forall_lookup_1 _ _ _ _ T2 Hv).
Qed.
Lemma same_generic E batch lvs lvs' sparsity ex p : same_params lvs lvs' -> relu_softmax lvs -> pass_of E batch lvs' sparsity ex p -> generic_pass E batch lvs ex p.
Proof.
  intros HS HT HP. pose proof (code_pass _ _ _ _ _ _ (same_types _ _ HS HT) HP) as G. unfold generic_pass in *. by rewrite (same_active _ _ _ _ HS) in G.
Qed.
Lemma reshuffled_same iter lvs lvs' : reshuffled iter lvs lvs' -> same_params lvs lvs'.
Proof.
  intros [H _]. eapply Forall2_impl; [exact H|]. intros lv lv' (r & -> & _). split; [done|]. cbn. by apply Forall_Forall2_diag, Forall_true.
Qed.
Lemma same_trans lvs1 lvs2 lvs3 : same_params lvs1 lvs2 -> same_params lvs2 lvs3 -> same_params lvs1 lvs3.
Proof.
  intros H1 H2. eapply Forall2_transitive; [|exact H1|exact H2]. intros a b c [T1 F1] [T2 F2]. split; [congruence|].
  eapply Forall2_transitive; [|exact F1|exact F2]. intros x y z (? & ? & ?) (? & ? & ?). repeat split; congruence.
Qed.
Lemma sgd_none_same lr lvs ls : sgd_layers lr [] lvs ls -> same_params lvs ls.
Proof.
  intros [HK H]. apply Forall2_same_length_lookup_2; [by eapply Forall2_length|]. intros j lv lv' Hj Hj'.
  pose proof (Forall2_lookup_lr _ _ _ _ _ _ HK Hj Hj') as K. split; [exact (lk_type _ _ K)|].
  apply Forall2_same_length_lookup_2; [symmetry; exact (lk_nodes _ _ K)|]. intros i v v' Hi Hi'.
  destruct (H j lv lv' i v v' Hj Hj' Hi Hi') as (W & B & I). split; [by injection I|]. split; [exact W|exact B].
Qed.
Lemma grad_sgd E c num sizes types batch lr inputDim k l rp sparsity m n m' os n' m'' ex iter rehash rebuild ins n'' m3 :
  e_LoadWeight E = false -> e_UseAdam E = false -> dims_ok E num sizes batch inputDim -> usual_types num types ->
  network_New E c num sizes types batch lr inputDim k l rp sparsity m = Ok (n, m') ->
  call_ops E c n os m' = Ok (n', m'') ->
  network_ProcessInput E c n [ex] iter rehash rebuild m'' = Ok ((ins, n''), m3) ->
  exists nv nv' p, live E m'' c n nv /\ live E m3 c n nv' /\ generic_pass E batch (nv_layers nv) ex p /\
    forall j lv lv' i v v', nv_layers nv !! j = Some lv -> nv_layers nv' !! j = Some lv' ->
      lv_nodes lv !! i = Some v -> lv_nodes lv' !! i = Some v' ->
      v_w v' = match error_of p j i with
               | Some d => stepped (floats E) (learning_rate E lr iter) d (map unpair (inputs_of p j)) (v_w v)
               | None => v_w v end.
Proof.
  intros HL HE HD HU HN HO HP.
  destruct (shape_calls _ _ _ _ _ _ _ _ _ _ _ _ _ _ _ _ _ _ HL HD HN HO) as (_ & nv0 & L0 & SH & _).
  destruct (sgd_training _ _ _ _ _ _ _ _ _ _ _ _ _ _ _ _ _ _ _ _ _ _ _ _ _ HL HE HD HN HO HP) as (nv & nv' & lvs & ps & L & L' & HR & [HLp HPs] & HW).
  rewrite (live_unique _ _ _ _ _ _ L0 L) in SH. destruct ps as [|p [|]]; [done| |done].
  destruct (HPs 0%nat ex p eq_refl eq_refl) as (ls & Hls & Hp). cbn [take] in Hls.
  exists nv, nv', p. split; [exact L|]. split; [exact L'|]. split.
  - eapply same_generic; [|eapply shape_types; [exact HU|exact SH]|exact Hp].
    eapply same_trans; [exact (reshuffled_same _ _ _ HR)|exact (sgd_none_same _ _ _ Hls)].
  - intros j lv lv' i v v' H1 H2 H3 H4. destruct (HW j lv lv' i v v' H1 H2 H3 H4) as (_ & W & _). rewrite W. unfold sgd_weights. cbn [fold_left].
    destruct (error_of p j i); [apply code_step|reflexivity].
Qed.
Lemma grad_adam E c num sizes types batch lr inputDim k l rp sparsity m n m' os n' m'' exs iter rehash rebuild ins n'' m3 :
  e_LoadWeight E = false -> e_UseAdam E = true -> dims_ok E num sizes batch inputDim -> usual_types num types ->
  network_New E c num sizes types batch lr inputDim k l rp sparsity m = Ok (n, m') ->
  call_ops E c n os m' = Ok (n', m'') ->
  network_ProcessInput E c n exs iter rehash rebuild m'' = Ok ((ins, n''), m3) ->
  exists nv nv' ps, live E m'' c n nv /\ live E m3 c n nv' /\ Forall2 (generic_pass E batch (nv_layers nv)) exs ps /\
    forall j lv lv' i v v', nv_layers nv !! j = Some lv -> nv_layers nv' !! j = Some lv' ->
      lv_nodes lv !! i = Some v -> lv_nodes lv' !! i = Some v' ->
      adam_step (learning_rate E lr iter) (weight_gradient ps j i (replicate (length (v_w v)) fzero)) (bias_gradient ps j i fzero) v v'.
Proof.
  intros HL HE HD HU HN HO HP.
  destruct (shape_calls _ _ _ _ _ _ _ _ _ _ _ _ _ _ _ _ _ _ HL HD HN HO) as (_ & nv0 & L0 & SH & _).
  destruct (batch_training _ _ _ _ _ _ _ _ _ _ _ _ _ _ _ _ _ _ _ _ _ _ _ _ _ HL HE HD HN HO HP) as (nv & nv' & lvs & ps & L & L' & HR & HPs & HW).
  rewrite (live_unique _ _ _ _ _ _ L0 L) in SH.
  exists nv, nv', ps. split; [exact L|]. split; [exact L'|]. split.
  - eapply Forall2_impl; [exact HPs|]. intros ex p Hp. eapply same_generic; [exact (reshuffled_same _ _ _ HR)| |exact Hp].
    eapply shape_types; [exact HU|exact SH].
  - intros j lv lv' i v v' H1 H2 H3 H4. by destruct (HW j lv lv' i v v' H1 H2 H3 H4).
Qed.
