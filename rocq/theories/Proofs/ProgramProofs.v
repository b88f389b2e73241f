(** The program is New followed by its list of calls. *)
From Verif.Proofs Require Import BaseProofs FifoProofs NetCalls NetSafe MainProofs AccuracyProofs.
From Verif.Spec Require Import LayerSpec ProgramSpec.
Local Open Scope Z_scope.

Lemma mfold_app {S A} (f : S -> A -> M S) xs ys s m : mfold f s (xs ++ ys) m = (s' ← mfold f s xs; mfold f s' ys) m.
Proof.
  revert s m. induction xs as [|x xs IH]; intros s m; [done|]. cbn [app mfold]. unfold mbind, M_bind.
  destruct (f s x m) as [[s1 m1]|]; [|done]. rewrite IH. done.
Qed.

Section Trace.
  Context (E : env) (c : Z) (n : Network).
  Definition alive (m : mem) : Prop := exists nv, live E m c n nv.
  (** The computation [r] from memory [m] does what the calls [ops] do. *)
  Definition traced {A} (m : mem) (r : res (A * mem)) (ops : list net_op) (Q : A -> Prop) : Prop :=
    match r with
    | Ok (a, m') => call_ops E c n ops m = Ok (n, m') /\ alive m' /\ Q a
    | Panic p => call_ops E c n ops m = Panic p
    end.
  Lemma calls_app ops ops' m : call_ops E c n (ops ++ ops') m =
    match call_ops E c n ops m with Ok (n', m') => call_ops E c n' ops' m' | Panic p => Panic p end.
  Proof. unfold call_ops. by rewrite mfold_app. Qed.
  Lemma traced_bind {A B} m (x : M A) (k : A -> M B) ops ops' (Q : A -> Prop) (R : B -> Prop) :
    traced m (x m) ops Q -> (forall a m', Q a -> alive m' -> traced m' (k a m') ops' R) -> traced m ((x ≫= k) m) (ops ++ ops') R.
  Proof.
    unfold traced. intros H HK. unfold mbind, M_bind. destruct (x m) as [[a m']|p].
    - destruct H as (H & HA & HQ). specialize (HK a m' HQ HA). destruct (k a m') as [[b m2]|q]; rewrite calls_app, H; done.
    - rewrite calls_app, H. done.
  Qed.
  Lemma traced_ret {A} m (a : A) (Q : A -> Prop) : alive m -> Q a -> traced m ((mret a : M A) m) [] Q.
  Proof. done. Qed.
  Lemma traced_weaken {A} m (r : res (A * mem)) ops (Q R : A -> Prop) : (forall a, Q a -> R a) -> traced m r ops Q -> traced m r ops R.
  Proof. unfold traced. destruct r as [[a m']|]; [|done]. naive_solver. Qed.
  Lemma traced_fold {S A} (f : S -> A -> M S) (g : A -> list net_op) (Q : S -> Prop) xs :
    (forall s x m, x ∈ xs -> Q s -> alive m -> traced m (f s x m) (g x) Q) ->
    forall s m, Q s -> alive m -> traced m (mfold f s xs m) (concat (map g xs)) Q.
  Proof.
    induction xs as [|x xs IH]; intros Hf s m HQ HA; cbn [mfold map concat]; [by apply traced_ret|].
    eapply traced_bind; [apply Hf; [set_solver|done..]|]. intros s' m' HQ' HA'. apply IH; [|done..]. intros. apply Hf; [set_solver|done..].
  Qed.
  Lemma traced_predict exs m : alive m -> traced m (network_PredictClass E c n exs m) [OpPredict exs] (fun a => a.2 = n).
  Proof.
    intros [nv L]. unfold traced, call_ops. cbn [mfold call_op]. unfold mbind, M_bind.
    pose proof (live_predict E m c n nv exs L) as HR. destruct (network_PredictClass E c n exs m) as [[[cnt n'] m']|p] eqn:Ep; [|done].
    destruct (refines_Ok _ _ _ _ _ HR eq_refl) as ([cnt' nv'] & _ & Ha & L'). injection Ha as -> ->.
    split; [done|]. split; [by exists nv'|done].
  Qed.
  Lemma traced_train exs iter rehash rebuild m : alive m ->
    traced m (network_ProcessInput E c n exs iter rehash rebuild m) [OpTrain exs iter rehash rebuild] (fun a => a.2 = n).
  Proof.
    intros [nv L]. unfold traced, call_ops. cbn [mfold call_op]. unfold mbind, M_bind.
    pose proof (live_process E m c n nv exs iter rehash rebuild L) as HR.
    destruct (network_ProcessInput E c n exs iter rehash rebuild m) as [[[cnt n'] m']|p] eqn:Ep; [|done].
    destruct (refines_Ok _ _ _ _ _ HR eq_refl) as ([cnt' nv'] & _ & Ha & L'). injection Ha as -> ->.
    split; [done|]. split; [by exists nv'|done].
  Qed.
End Trace.

Lemma concat_singles {A B} (f : A -> B) xs : concat (map (fun x => [f x]) xs) = map f xs.
Proof. induction xs as [|x xs IH]; [done|]. cbn. by rewrite IH. Qed.

Section Program.
  Context (w : world) (cfg : Configuration) (train test : list Example_) (n : Network).
  Context (OK : program_ok cfg) (Htrain : file_delivers w (c_TrainData cfg) train) (Htest : file_delivers w (c_TestData cfg) test).
  Notation E := (settings w cfg).
  Notation B := (c_BatchSize cfg).

  Lemma traced_evaluate c nb m : 0 <= nb -> alive E c n m ->
    traced E c n m (evaluateSvm w cfg c nb n m) (eval_calls B nb test) (fun _ => True).
  Proof.
    intros Hnb HA. rewrite (evaluate_spec _ _ _ _ _ _ _ (Z.lt_le_incl _ _ (po_batch _ OK)) Hnb Htest). unfold spec_evaluate. cbn zeta.
    rewrite <- (app_nil_r (eval_calls _ _ _)).
    eapply (traced_bind E c n m _ _ _ _ (fun st : Network * Z * list logline => st.1.1 = n)).
    - unfold eval_calls. rewrite <- concat_singles. apply (traced_fold E c n _ (fun i => [OpPredict (batch B i test)]) (fun st : Network * Z * list logline => st.1.1 = n)); [|done|done].
      intros [[n' tot] log] i m1 _ Hn HA1. cbn in Hn. subst n'. rewrite <- (app_nil_r [_]).
      eapply traced_bind; [by apply traced_predict|]. intros [cnt n'] m2 Hn HA2. cbn in Hn. subst n'. by apply traced_ret.
    - intros [[n' tot] log] m1 _ HA1. by apply traced_ret.
  Qed.
  Lemma traced_epoch c nb e m : 0 <= nb -> schedule_ok cfg nb e -> alive E c n m ->
    traced E c n m (trainSvmEpoch w cfg c nb n e m) (epoch_calls cfg nb e train test) (fun _ => True).
  Proof.
    intros Hnb HS HA. rewrite (epoch_spec _ _ _ _ _ _ _ _ HS Hnb Htrain). unfold spec_epoch.
    rewrite <- (app_nil_r (epoch_calls _ _ _ _ _)).
    eapply (traced_bind E c n m _ _ _ _ (fun st : Network * list logline => st.1 = n)).
    - unfold epoch_calls. match goal with |- context [map ?g (seqZ 0 nb)] => apply (traced_fold E c n _ g (fun st : Network * list logline => st.1 = n)) end; [|done|done].
      intros [n' log] i m1 _ Hn HA1. cbn in Hn. subst n'. cbn zeta. eapply (traced_bind E c n m1 _ _ _ _ (fun _ => True)).
      + destruct ((0 <? i) && _); [by apply traced_evaluate|by apply traced_ret].
      + intros out m2 _ HA2. rewrite <- (app_nil_r [_]). eapply traced_bind; [by apply traced_train|]. intros [ins n'] m3 Hn HA3. cbn in Hn. subst n'. by apply traced_ret.
    - intros [n' log] m1 _ HA1. by apply traced_ret.
  Qed.
End Program.

Lemma program_schedule cfg e : program_ok cfg -> 0 <= e < c_Epoch cfg -> schedule_ok cfg (c_TotRecords cfg / c_BatchSize cfg) e.
Proof.
  intros OK He. pose proof (po_batch _ OK) as HB. pose proof (po_records _ OK) as HR. pose proof (po_iter _ OK) as HI.
  assert (0 <= c_TotRecords cfg / c_BatchSize cfg) by (apply Z.div_pos; lia).
  constructor; try apply OK. split; [lia|]. nia.
Qed.

Lemma program_trace w cfg train test m :
  program_ok cfg -> dims_ok (settings w cfg) (c_NumLayer cfg) (c_SizesOfLayers cfg) (c_BatchSize cfg) (c_InputDim cfg) ->
  file_delivers w (c_TrainData cfg) train -> file_delivers w (c_TestData cfg) test ->
  end_of (main w cfg m) =
  end_of ((net ← network_New (settings w cfg) 0 (c_NumLayer cfg) (c_SizesOfLayers cfg) (program_types cfg) (c_BatchSize cfg)
                  (c_LearningRate cfg) (c_InputDim cfg) (c_K cfg) (c_L cfg) (c_RangePow cfg) (c_Sparsity cfg);
           call_ops (settings w cfg) 0 net (program_calls cfg train test)) m).
Proof.
  intros OK HD Htr Hte. pose proof (po_batch _ OK) as HB. unfold main. cbv zeta.
  rewrite (go_div_pos _ _ HB (po_records _ OK)), (go_div_pos _ _ HB (po_test _ OK)), (types_ok _ (po_layers _ OK)).
  fold (program_types cfg). unfold lift. unfold mbind, M_bind.
  pose proof (network_New_ref (settings w cfg) 0 (c_NumLayer cfg) (c_BatchSize cfg) (c_InputDim cfg) (c_SizesOfLayers cfg) (program_types cfg) (c_LearningRate cfg)
    (c_K cfg) (c_L cfg) (c_RangePow cfg) (c_Sparsity cfg) m (po_load _ OK) HD) as HN.
  destruct (network_New _ _ _ _ _ _ _ _ _ _ _ _ _) as [[n m1]|p]; [|done].
  destruct (refines_Ok _ _ _ _ _ HN eq_refl) as (nv & _ & _ & L & _). clear HN.
  match goal with |- end_of (mfold ?f [] ?xs m1) = _ =>
    assert (HT : traced (settings w cfg) 0 n m1 (mfold f [] xs m1) (program_calls cfg train test) (fun _ => True)) end.
  { unfold program_calls. cbn zeta.
    match goal with |- context [map ?g (seqZ 0 (c_Epoch cfg))] => apply (traced_fold (settings w cfg) 0 n _ g (fun _ => True)) end; [|done|by exists nv].
    intros log e m2 He _ HA. apply elem_of_seqZ in He.
    assert (0 <= c_TotRecords cfg / c_BatchSize cfg) by (pose proof (po_records _ OK); apply Z.div_pos; lia).
    assert (0 <= c_TotRecordsTest cfg / c_BatchSize cfg) by (pose proof (po_test _ OK); apply Z.div_pos; lia).
    change (fun m0 => ?F m0) with F.
    eapply (traced_bind _ _ _ _ (trainSvmEpoch w cfg 0 (c_TotRecords cfg / c_BatchSize cfg) n e) _ _ _ (fun _ => True)).
    - apply traced_epoch; try done. apply program_schedule; [done|lia].
    - intros l1 m3 _ HA3. rewrite <- (app_nil_r (eval_calls _ _ _)).
      match goal with |- context [evaluateSvm w cfg 0 ?q n] => eapply (traced_bind _ _ _ _ (evaluateSvm w cfg 0 q n) (fun l2 => mret (log ++ l1 ++ l2)) _ _ (fun _ => True)) end.
      + apply traced_evaluate; try done. destruct (e =? _); lia.
      + intros l2 m4 _ HA4. by apply traced_ret. }
  unfold traced in HT. destruct (mfold _ [] _ m1) as [[log m2]|q]; [|by rewrite HT]. destruct HT as [-> _]. done.
Qed.

(** C68 *)
Lemma batch_sub B i exs ex : ex ∈ batch B i exs -> ex ∈ exs.
Proof. unfold batch. intros H. apply elem_of_list_lookup in H as [k H]. apply lookup_take_Some in H as [H _]. rewrite lookup_drop in H. by eapply elem_of_list_lookup_2. Qed.
Lemma batch_le B i exs : 0 <= B -> Z.of_nat (length (batch B i exs)) <= B.
Proof. intros HB. unfold batch. rewrite take_length. lia. Qed.
Lemma program_fits cfg train test : program_ok cfg ->
  Forall (fun ex => features_fit (c_InputDim cfg) ex /\ labels_fit (c_NumLayer cfg) (c_SizesOfLayers cfg) (program_types cfg) ex) train ->
  Forall (features_fit (c_InputDim cfg)) test ->
  Forall (call_fits (c_NumLayer cfg) (c_SizesOfLayers cfg) (program_types cfg) (c_BatchSize cfg) (c_InputDim cfg)) (program_calls cfg train test).
Proof.
  intros OK Htr Hte. rewrite Forall_forall in Htr, Hte. pose proof (po_batch _ OK) as HB.
  assert (HE : forall nb, Forall (call_fits (c_NumLayer cfg) (c_SizesOfLayers cfg) (program_types cfg) (c_BatchSize cfg) (c_InputDim cfg)) (eval_calls (c_BatchSize cfg) nb test)).
  { intros nb. unfold eval_calls. apply Forall_forall. intros o Ho. apply elem_of_list_fmap in Ho as (i & -> & _). cbn [call_fits].
    split; [apply batch_le; lia|]. apply Forall_forall. intros ex Hx. by apply Hte, (batch_sub _ _ _ _ Hx). }
  apply Forall_concat. apply Forall_forall. intros os Hos. apply elem_of_list_fmap in Hos as (e & -> & _).
  apply Forall_app. split; [|apply HE]. apply Forall_concat. apply Forall_forall. intros os Hos. apply elem_of_list_fmap in Hos as (i & -> & _). cbn zeta.
  apply Forall_app. split; [destruct (_ && _); [apply HE|by apply Forall_nil]|]. apply Forall_singleton. cbn [call_fits].
  split; [apply batch_le; lia|]. apply Forall_forall. intros ex Hx. by apply Htr, (batch_sub _ _ _ _ Hx).
Qed.
Lemma well_dims mode E num sizes types batch inputDim k l rp sparsity : well_formed_with mode E num sizes types batch inputDim k l rp sparsity -> dims_ok E num sizes batch inputDim.
Proof.
  intros (Hn & Hb & Hd & HF). split; [done|]. split; [done|]. intros j size prev Hj Hs Hp.
  destruct (HF j) as (size1 & prev1 & ? & ? & ? & ? & ? & ? & Hs1 & Hp1 & _ & _ & _ & _ & _ & _ & H1 & H2 & H3 & _ & _ & HH & _); [lia|].
  rewrite Hs in Hs1. injection Hs1 as <-. rewrite Hp in Hp1. injection Hp1 as <-. split; [done|]. split; [done|]. split; [done|].
  intros EH. destruct HH as (_ & _ & HH). by rewrite EH in HH.
Qed.
Lemma program_runs w cfg train test m :
  program_ok cfg ->
  well_formed (settings w cfg) (c_NumLayer cfg) (c_SizesOfLayers cfg) (program_types cfg) (c_BatchSize cfg) (c_InputDim cfg)
    (c_K cfg) (c_L cfg) (c_RangePow cfg) (c_Sparsity cfg) ->
  file_delivers w (c_TrainData cfg) train -> file_delivers w (c_TestData cfg) test ->
  Forall (fun ex => features_fit (c_InputDim cfg) ex /\ labels_fit (c_NumLayer cfg) (c_SizesOfLayers cfg) (program_types cfg) ex) train ->
  Forall (features_fit (c_InputDim cfg)) test ->
  exists log m', main w cfg m = Ok (log, m').
Proof.
  intros OK W Htr Hte Ftr Fte. pose proof (program_trace w cfg train test m OK (well_dims _ _ _ _ _ _ _ _ _ _ _ W) Htr Hte) as HT.
  destruct (safe_calls (settings w cfg) 0 (c_NumLayer cfg) (c_SizesOfLayers cfg) (program_types cfg) (c_BatchSize cfg) (c_LearningRate cfg) (c_InputDim cfg)
    (c_K cfg) (c_L cfg) (c_RangePow cfg) (c_Sparsity cfg) m (po_load _ OK) W) as (n & m1 & HN & HC).
  destruct (HC _ (program_fits cfg train test OK Ftr Fte)) as (m2 & H2).
  unfold mbind, M_bind in HT. rewrite HN, H2 in HT. destruct (main w cfg m) as [[log m']|p]; [eauto|discriminate HT].
Qed.
Lemma program_room cfg train test :
  Forall (labels_room (c_NumLayer cfg) (c_SizesOfLayers cfg) (program_types cfg) (c_Sparsity cfg)) train ->
  Forall (call_room (c_NumLayer cfg) (c_SizesOfLayers cfg) (program_types cfg) (c_Sparsity cfg)) (program_calls cfg train test).
Proof.
  intros Htr. rewrite Forall_forall in Htr.
  assert (HE : forall nb, Forall (call_room (c_NumLayer cfg) (c_SizesOfLayers cfg) (program_types cfg) (c_Sparsity cfg)) (eval_calls (c_BatchSize cfg) nb test)).
  { intros nb. unfold eval_calls. apply Forall_forall. intros o Ho. apply elem_of_list_fmap in Ho as (i & -> & _). exact I. }
  apply Forall_concat. apply Forall_forall. intros os Hos. apply elem_of_list_fmap in Hos as (e & -> & _).
  apply Forall_app. split; [|apply HE]. apply Forall_concat. apply Forall_forall. intros os Hos. apply elem_of_list_fmap in Hos as (i & -> & _). cbn zeta.
  apply Forall_app. split; [destruct (_ && _); [apply HE|by apply Forall_nil]|]. apply Forall_singleton. cbn [call_room].
  apply Forall_forall. intros ex Hx. by apply Htr, (batch_sub _ _ _ _ Hx).
Qed.
Lemma program_samples w cfg train test m :
  program_ok cfg ->
  well_formed_covered (rstream (m_rng m)) (settings w cfg) (c_NumLayer cfg) (c_SizesOfLayers cfg) (program_types cfg) (c_BatchSize cfg) (c_InputDim cfg)
    (c_K cfg) (c_L cfg) (c_RangePow cfg) (c_Sparsity cfg) ->
  file_delivers w (c_TrainData cfg) train -> file_delivers w (c_TestData cfg) test ->
  Forall (fun ex => features_fit (c_InputDim cfg) ex /\ labels_fit (c_NumLayer cfg) (c_SizesOfLayers cfg) (program_types cfg) ex) train ->
  Forall (labels_room (c_NumLayer cfg) (c_SizesOfLayers cfg) (program_types cfg) (c_Sparsity cfg)) train ->
  Forall (features_fit (c_InputDim cfg)) test ->
  exists log m', main w cfg m = Ok (log, m').
Proof.
  intros OK W Htr Hte Ftr Rtr Fte. pose proof (program_trace w cfg train test m OK (well_dims _ _ _ _ _ _ _ _ _ _ _ W) Htr Hte) as HT.
  destruct (covered_calls (settings w cfg) 0 (c_NumLayer cfg) (c_SizesOfLayers cfg) (program_types cfg) (c_BatchSize cfg) (c_LearningRate cfg) (c_InputDim cfg)
    (c_K cfg) (c_L cfg) (c_RangePow cfg) (c_Sparsity cfg) m (po_load _ OK) W) as (n & m1 & HN & HC).
  destruct (HC _ (program_fits cfg train test OK Ftr Fte) (program_room cfg train test Rtr)) as (m2 & H2).
  unfold mbind, M_bind in HT. rewrite HN, H2 in HT. destruct (main w cfg m) as [[log m']|p]; [eauto|discriminate HT].
Qed.

(** C62 for the program *)
Lemma evaluate_fractions w cfg c nb net test m log m' :
  0 < c_BatchSize cfg -> 0 < nb -> nb * c_BatchSize cfg <= 2 ^ 53 -> file_delivers w (c_TestData cfg) test ->
  evaluateSvm w cfg c nb net m = Ok (log, m') -> Forall (fun l => fraction (accuracy l)) log.
Proof.
  intros HB Hnb Hs Hf H. destruct (evaluate_accuracy _ _ _ _ _ _ _ _ _ HB Hnb Hs Hf H) as (counts & iters & q & _ & -> & (_ & Q) & HL & HI & _).
  apply Forall_app. split; [|by apply Forall_singleton]. apply Forall_lookup. intros j x Hx.
  destruct (HI j) as (a & Ha & (_ & A)); [rewrite <- HL; by eapply lookup_lt_Some|]. rewrite Hx in Ha. injection Ha as ->. exact A.
Qed.
Lemma epoch_fractions w cfg c nb net e train test m log m' :
  schedule_ok cfg nb e -> 0 <= nb -> 20 * c_BatchSize cfg <= 2 ^ 53 -> file_delivers w (c_TrainData cfg) train -> file_delivers w (c_TestData cfg) test ->
  trainSvmEpoch w cfg c nb net e m = Ok (log, m') -> Forall (fun l => fraction (accuracy l)) log.
Proof.
  intros HS Hnb Hs Htr Hte H. rewrite (epoch_spec _ _ _ _ _ _ _ _ HS Hnb Htr) in H. unfold spec_epoch in H.
  apply bindM_inv in H as ([n1 l1] & m1 & Hm & H). injection H as <- _.
  refine (mfold_inv _ (fun _ st _ => Forall (fun l => fraction (accuracy l)) st.2) _ _ [] (net, []) m (n1, l1) m1 _ Hm); [|by apply Forall_nil].
  intros _ i [n2 l2] m2 [n3 l3] m3 HI Hst. cbn zeta in Hst. apply bindM_inv in Hst as (out & m4 & Ho & Hst). apply bindM_inv in Hst as ([ins n4] & m5 & _ & Hst).
  injection Hst as _ <- _. cbn [snd] in *. apply Forall_app. split; [done|].
  destruct (_ && _); [|injection Ho as <- _; by apply Forall_nil]. eapply evaluate_fractions; [apply HS| |exact Hs|exact Hte|exact Ho]. lia.
Qed.
Lemma program_fractions w cfg train test m log m' :
  program_ok cfg -> file_delivers w (c_TrainData cfg) train -> file_delivers w (c_TestData cfg) test ->
  c_BatchSize cfg <= c_TotRecordsTest cfg <= 2 ^ 53 -> 50 * c_BatchSize cfg <= 2 ^ 53 ->
  main w cfg m = Ok (log, m') -> Forall (fun l => fraction (accuracy l)) log.
Proof.
  intros OK Htr Hte Ht Hb H. pose proof (po_batch _ OK) as HB. unfold main in H. cbv zeta in H.
  rewrite (go_div_pos _ _ HB (po_records _ OK)), (go_div_pos _ _ HB (po_test _ OK)), (types_ok _ (po_layers _ OK)) in H.
  apply bindM_inv in H as (? & ? & [= <- <-] & H). apply bindM_inv in H as (? & ? & [= <- <-] & H). apply bindM_inv in H as (? & ? & [= <- <-] & H).
  apply bindM_inv in H as (n & m1 & _ & H).
  assert (0 <= c_TotRecords cfg / c_BatchSize cfg) by (pose proof (po_records _ OK); apply Z.div_pos; lia).
  assert (0 < c_TotRecordsTest cfg / c_BatchSize cfg) by (apply Z.div_str_pos; lia).
  assert (c_TotRecordsTest cfg / c_BatchSize cfg * c_BatchSize cfg <= 2 ^ 53) by (pose proof (Z.mul_div_le (c_TotRecordsTest cfg) (c_BatchSize cfg)); lia).
  assert (HG : forall xs, (forall e, e ∈ xs -> 0 <= e < c_Epoch cfg) -> forall log0 m0 log1 m1',
    Forall (fun l => fraction (accuracy l)) log0 ->
    mfold (fun log e =>
      l1 ← trainSvmEpoch w cfg 0 (c_TotRecords cfg / c_BatchSize cfg) n e;
      l2 ← evaluateSvm w cfg 0 (if e =? c_Epoch cfg - 1 then c_TotRecordsTest cfg / c_BatchSize cfg else 50) n;
      mret (log ++ l1 ++ l2)) log0 xs m0 = Ok (log1, m1') -> Forall (fun l => fraction (accuracy l)) log1).
  { induction xs as [|e xs IH]; intros Hxs log0 m0 log1 m1' Hl0 Hm; cbn [mfold] in Hm; [by injection Hm as <- _|].
    apply bindM_inv in Hm as (log2 & m2 & Hs & Hm). refine (IH _ _ _ _ _ _ Hm); [intros; apply Hxs; set_solver|].
    apply bindM_inv in Hs as (l1 & m3 & E1 & Hs). apply bindM_inv in Hs as (l2 & m4 & E2 & Hs). injection Hs as <- _.
    assert (0 <= e < c_Epoch cfg) by (apply Hxs; set_solver).
    rewrite !Forall_app. split; [done|]. split.
    - eapply epoch_fractions; [by apply program_schedule|done| |exact Htr|exact Hte|exact E1]. lia.
    - eapply evaluate_fractions; [done| | |exact Hte|exact E2]; destruct (e =? _); lia. }
  refine (HG _ _ _ _ _ _ (Forall_nil_2 _) H). intros e He%elem_of_seqZ. lia.
Qed.

Lemma evaluate_empty w cfg c net test m log m' :
  0 <= c_BatchSize cfg -> file_delivers w (c_TestData cfg) test -> evaluateSvm w cfg c 0 net m = Ok (log, m') ->
  exists a, log = [LogOverall a] /\ is_nan a = true.
Proof.
  intros HB Hf H. rewrite (evaluate_spec _ _ _ _ _ _ _ HB (Z.le_refl 0) Hf) in H. unfold spec_evaluate in H. cbv zeta in H.
  apply bindM_inv in H as ([[n1 tot] l1] & m1 & Hm & H). injection Hm as _ <- <- <-. injection H as <- _. eexists. split; [reflexivity|].
  generalize (f_of_Z (c_BatchSize cfg)). change (f_of_Z 0) with (S754_zero false). intros [s|s| |s mm e]; done.
Qed.
