(** The accuracy lines and the parameters. *)
From Verif.Proofs Require Import BaseProofs NetInfer NetNew NetSafe MainProofs AccuracyProofs DenseProofs ProgramProofs.
From Verif.Spec Require Import LayerSpec InferSpec MainSpec ReportSpec.
From Coq Require Import Lia.
Local Open Scope Z_scope.

Lemma correct_app exp ps xs ys : correct_of exp ps (xs ++ ys) = correct_of exp ps xs + correct_of exp ps ys.
Proof. apply hits_app. Qed.

Lemma correct_perm exp ps xs ys : xs ≡ₚ ys -> correct_of exp ps xs = correct_of exp ps ys.
Proof.
  induction 1 as [|x xs ys H IH|x y xs|xs ys zs H1 IH1 H2 IH2]; [done| | |by rewrite IH1].
  - change (x :: xs) with ([x] ++ xs). change (x :: ys) with ([x] ++ ys). by rewrite !correct_app, IH.
  - change (y :: x :: xs) with ([y] ++ [x] ++ xs). change (x :: y :: xs) with ([x] ++ [y] ++ xs). rewrite !correct_app. lia.
Qed.

Lemma predicts_dense E c n m bs ks m' : predicts E c n m bs ks m' -> forall nv,
  live E m c n nv -> dense_prediction n ->
  ks = map (correct_of (e_exp E) (parameters_of (nv_layers nv))) bs /\
  exists nv', live E m' c n nv' /\ parameters_of (nv_layers nv') = parameters_of (nv_layers nv).
Proof.
  induction 1 as [n m|n m b bs k ks n1 m1 m2 HP HR IH]; intros nv L HD.
  - split; [done|]. by exists nv.
  - pose proof (dense_predict _ _ _ _ _ _ _ _ _ L HD HP) as Hk.
    destruct (predict_unchanged _ _ _ _ _ _ _ _ _ L HP) as (Hn & nv1 & L1 & S1). subst n1.
    pose proof (same_parameters _ _ _ S1) as HS.
    destruct (IH nv1 L1 HD) as (Hks & nv2 & L2 & S2). rewrite HS in Hks, S2.
    split; [cbn [map]; f_equal; [exact Hk|exact Hks]|]. by exists nv2.
Qed.

Lemma sum_correct exp ps bs : sumZ (map (correct_of exp ps) bs) = correct_of exp ps (concat bs).
Proof.
  induction bs as [|b bs IH]; [done|]. cbn [map concat]. rewrite correct_app, <- IH. reflexivity.
Qed.

Lemma take_seqZ k nb : (k <= Z.to_nat nb)%nat -> take k (seqZ 0 nb) = seqZ 0 (Z.of_nat k).
Proof.
  intros Hk. apply list_eq. intros i. destruct (decide (i < k)%nat).
  - rewrite lookup_take by done. rewrite !lookup_seqZ_lt by lia. done.
  - rewrite lookup_take_ge by lia. symmetry. apply lookup_seqZ_ge. lia.
Qed.

Lemma evaluate_reports w cfg c nb n nv test m log m' :
  live (settings w cfg) m c n nv -> dense_prediction n ->
  0 < c_BatchSize cfg -> 0 < nb -> nb * c_BatchSize cfg <= 2^53 -> file_delivers w (c_TestData cfg) test ->
  evaluateSvm w cfg c nb n m = Ok (log, m') ->
  (exists nv', live (settings w cfg) m' c n nv' /\ parameters_of (nv_layers nv') = parameters_of (nv_layers nv)) /\
  exists iters q, log = iters ++ [LogOverall q] /\ length iters = Z.to_nat nb /\
    proportion q (correct_of (w_exp w) (parameters_of (nv_layers nv)) (take (Z.to_nat (nb * c_BatchSize cfg)) test)) (nb * c_BatchSize cfg) /\
    forall j, 0 <= j < nb -> exists a, iters !! Z.to_nat j = Some (LogIter j a) /\
      proportion a (correct_of (w_exp w) (parameters_of (nv_layers nv)) (take (Z.to_nat ((j + 1) * c_BatchSize cfg)) test)) ((j + 1) * c_BatchSize cfg).
Proof.
  intros L HD HB Hnb Hs Hf H.
  destruct (evaluate_accuracy _ _ _ _ _ _ _ _ _ HB Hnb Hs Hf H) as (ks & iters & q & HP & -> & Hq & Hlen & Hit & _).
  destruct (predicts_dense _ _ _ _ _ _ _ HP _ L HD) as (-> & HL). change (e_exp (settings w cfg)) with (w_exp w) in *.
  split; [exact HL|]. exists iters, q. split; [done|]. split; [done|]. split.
  - rewrite sum_correct, batches_concat in Hq by lia. exact Hq.
  - intros j Hj. destruct (Hit (Z.to_nat j)) as (a & Ha & Hp); [lia|]. rewrite Z2Nat.id in Ha, Hp by lia. exists a. split; [done|].
    rewrite <- !list_fmap_alt in Hp || idtac.
    rewrite !firstn_map, take_seqZ, sum_correct, batches_concat in Hp by lia.
    replace (Z.of_nat (S (Z.to_nat j))) with (j + 1) in Hp by lia. by rewrite (Z.mul_comm (c_BatchSize cfg)) in Hp.
Qed.

Lemma main_last w cfg train test m log m' :
  program_ok cfg -> dims_ok (settings w cfg) (c_NumLayer cfg) (c_SizesOfLayers cfg) (c_BatchSize cfg) (c_InputDim cfg) ->
  file_delivers w (c_TrainData cfg) train -> file_delivers w (c_TestData cfg) test -> 0 < c_Epoch cfg ->
  main w cfg m = Ok (log, m') ->
  exists n m1 nv m2 log1 log2,
    network_New (settings w cfg) 0 (c_NumLayer cfg) (c_SizesOfLayers cfg) (program_types cfg) (c_BatchSize cfg)
      (c_LearningRate cfg) (c_InputDim cfg) (c_K cfg) (c_L cfg) (c_RangePow cfg) (c_Sparsity cfg) m = Ok (n, m1) /\
    nw_num n = c_NumLayer cfg /\ nw_sparsity n = c_Sparsity cfg /\ live (settings w cfg) m2 0 n nv /\
    evaluateSvm w cfg 0 (c_TotRecordsTest cfg / c_BatchSize cfg) n m2 = Ok (log2, m') /\ log = log1 ++ log2.
Proof.
  intros OK HD Htr Hte HE H. pose proof (po_batch _ OK) as HB. unfold main in H. cbv zeta in H.
  rewrite (go_div_pos _ _ HB (po_records _ OK)), (go_div_pos _ _ HB (po_test _ OK)), (types_ok _ (po_layers _ OK)) in H.
  apply bindM_inv in H as (? & ? & [= <- <-] & H). apply bindM_inv in H as (? & ? & [= <- <-] & H). apply bindM_inv in H as (? & ? & [= <- <-] & H).
  apply bindM_inv in H as (n & m1 & HNew & H). fold (program_types cfg) in HNew.
  pose proof (network_New_ref (settings w cfg) 0 (c_NumLayer cfg) (c_BatchSize cfg) (c_InputDim cfg) (c_SizesOfLayers cfg) (program_types cfg) (c_LearningRate cfg)
    (c_K cfg) (c_L cfg) (c_RangePow cfg) (c_Sparsity cfg) m (po_load _ OK) HD) as HN.
  destruct (refines_Ok _ _ _ _ _ HN HNew) as (nv & _ & (arr & Harr) & L & _). clear HN.
  assert (HN : nw_num n = c_NumLayer cfg /\ nw_sparsity n = c_Sparsity cfg) by (rewrite Harr; split; reflexivity). clear Harr.
  set (NEW := network_New _ _ _ _ _ _ _ _ _ _ _ _ m) in HNew |- *. clearbody NEW.
  destruct HN as [HN1 HN2].
  assert (Hn1 : 0 <= c_TotRecords cfg / c_BatchSize cfg) by (pose proof (po_records _ OK); apply Z.div_pos; lia).
  assert (Hn2 : 0 <= c_TotRecordsTest cfg / c_BatchSize cfg) by (pose proof (po_test _ OK); apply Z.div_pos; lia).
  assert (Hsplit : seqZ 0 (c_Epoch cfg) = seqZ 0 (c_Epoch cfg - 1) ++ [c_Epoch cfg - 1]).
  { replace (c_Epoch cfg) with ((c_Epoch cfg - 1) + 1) at 1 by lia. rewrite seqZ_app by lia. f_equal. }
  rewrite Hsplit, mfold_app in H. apply bindM_inv in H as (log0 & m2 & Hpre & H).
  match type of Hpre with mfold ?f [] ?xs m1 = _ =>
    assert (HT : traced (settings w cfg) 0 n m1 (mfold f [] xs m1)
      (concat (map (fun e => epoch_calls cfg (c_TotRecords cfg / c_BatchSize cfg) e train test ++
         eval_calls (c_BatchSize cfg) (if e =? c_Epoch cfg - 1 then c_TotRecordsTest cfg / c_BatchSize cfg else 50) test) xs)) (fun _ => True)) end.
  { match goal with |- context [map ?g (seqZ 0 _)] => apply (traced_fold (settings w cfg) 0 n _ g (fun _ => True)) end; [|done|by exists nv].
    intros lg e m3 He _ HA. apply elem_of_seqZ in He.
    change (fun m0 => ?F m0) with F.
    eapply (traced_bind _ _ _ _ (trainSvmEpoch w cfg 0 (c_TotRecords cfg / c_BatchSize cfg) n e) _ _ _ (fun _ => True)).
    - apply traced_epoch; try done. apply program_schedule; [done|lia].
    - intros l1 m4 _ HA3. rewrite <- (app_nil_r (eval_calls _ _ _)).
      match goal with |- context [evaluateSvm w cfg 0 ?q n] => eapply (traced_bind _ _ _ _ (evaluateSvm w cfg 0 q n) (fun l2 => mret (lg ++ l1 ++ l2)) _ _ (fun _ => True)) end.
      + apply traced_evaluate; try done. destruct (e =? _); lia.
      + intros l2 m5 _ HA4. by apply traced_ret. }
  unfold traced in HT. rewrite Hpre in HT. destruct HT as (_ & HA2 & _).
  cbn [mfold] in H. apply bindM_inv in H as (log1 & m3 & H & Hret). injection Hret as <- <-.
  apply bindM_inv in H as (l1 & m4 & E1 & H). apply bindM_inv in H as (l2 & m5 & E2 & H). injection H as <- <-.
  rewrite Z.eqb_refl in E2.
  pose proof (traced_epoch w cfg train test n OK Htr Hte 0 _ (c_Epoch cfg - 1) m2 Hn1 (program_schedule cfg (c_Epoch cfg - 1) OK ltac:(lia)) HA2) as HT2.
  unfold traced in HT2. rewrite E1 in HT2. destruct HT2 as (_ & (nv4 & L4) & _).
  exists n, m1, nv4, m4, (log0 ++ l1), l2. split; [exact HNew|]. split; [exact HN1|]. split; [exact HN2|]. split; [exact L4|]. split; [exact E2|]. apply app_assoc.
Qed.

Lemma program_reports w cfg train test m log m' :
  program_ok cfg -> dims_ok (settings w cfg) (c_NumLayer cfg) (c_SizesOfLayers cfg) (c_BatchSize cfg) (c_InputDim cfg) ->
  file_delivers w (c_TrainData cfg) train -> file_delivers w (c_TestData cfg) test -> dense_settings cfg ->
  0 < c_Epoch cfg -> c_BatchSize cfg <= c_TotRecordsTest cfg <= 2^53 ->
  main w cfg m = Ok (log, m') ->
  exists n m1 nv q log0,
    network_New (settings w cfg) 0 (c_NumLayer cfg) (c_SizesOfLayers cfg) (program_types cfg) (c_BatchSize cfg)
      (c_LearningRate cfg) (c_InputDim cfg) (c_K cfg) (c_L cfg) (c_RangePow cfg) (c_Sparsity cfg) m = Ok (n, m1) /\
    live (settings w cfg) m' 0 n nv /\ log = log0 ++ [LogOverall q] /\
    let used := c_TotRecordsTest cfg / c_BatchSize cfg * c_BatchSize cfg in
    proportion q (correct_of (w_exp w) (parameters_of (nv_layers nv)) (take (Z.to_nat used) test)) used.
Proof.
  intros OK HD Htr Hte HS HE Ht H. pose proof (po_batch _ OK) as HB.
  destruct (main_last _ _ _ _ _ _ _ OK HD Htr Hte HE H) as (n & m1 & nv & m2 & log1 & log2 & HNew & HN1 & HN2 & L & Hev & ->).
  assert (Hdp : dense_prediction n) by (unfold dense_prediction; rewrite HN1, HN2; exact HS).
  assert (H1 : 0 < c_TotRecordsTest cfg / c_BatchSize cfg) by (apply Z.div_str_pos; lia).
  assert (H2 : c_TotRecordsTest cfg / c_BatchSize cfg * c_BatchSize cfg <= 2^53)
    by (pose proof (Z.mul_div_le (c_TotRecordsTest cfg) (c_BatchSize cfg)); lia).
  destruct (evaluate_reports _ _ _ _ _ _ _ _ _ _ L Hdp HB H1 H2 Hte Hev) as ((nv' & L' & HP) & iters & q & -> & _ & Hq & _).
  exists n, m1, nv', q, (log1 ++ iters). split; [exact HNew|]. split; [exact L'|]. split; [apply app_assoc|]. cbv zeta. rewrite HP. exact Hq.
Qed.

Lemma reports_same w cfg w' cfg' c nb nb' n nv nv' test test' m m1 log log' m2 m3 :
  live (settings w cfg) m c n nv -> live (settings w' cfg') m1 c n nv' -> dense_prediction n ->
  w_exp w' = w_exp w -> parameters_of (nv_layers nv') = parameters_of (nv_layers nv) ->
  0 < c_BatchSize cfg -> 0 < nb -> nb * c_BatchSize cfg <= 2^53 -> file_delivers w (c_TestData cfg) test ->
  0 < c_BatchSize cfg' -> nb' * c_BatchSize cfg' = nb * c_BatchSize cfg -> file_delivers w' (c_TestData cfg') test' ->
  take (Z.to_nat (nb * c_BatchSize cfg)) test ≡ₚ take (Z.to_nat (nb * c_BatchSize cfg)) test' ->
  evaluateSvm w cfg c nb n m = Ok (log, m2) -> evaluateSvm w' cfg' c nb' n m1 = Ok (log', m3) ->
  exists iters q iters' q', log = iters ++ [LogOverall q] /\ log' = iters' ++ [LogOverall q'] /\
    Flocq.IEEE754.BinarySingleNaN.SF2R Flocq.Core.Zaux.radix2 q' = Flocq.IEEE754.BinarySingleNaN.SF2R Flocq.Core.Zaux.radix2 q.
Proof.
  intros L L' HD Hx HP HB Hnb Hs Hf HB' Heq Hf' Hperm H H'.
  destruct (evaluate_reports _ _ _ _ _ _ _ _ _ _ L HD HB Hnb Hs Hf H) as (_ & it & q & -> & _ & [Hq _] & _).
  assert (Hnb' : 0 < nb') by nia.
  assert (Hs' : nb' * c_BatchSize cfg' <= 2^53) by lia.
  destruct (evaluate_reports _ _ _ _ _ _ _ _ _ _ L' HD HB' Hnb' Hs' Hf' H') as (_ & it' & q' & -> & _ & [Hq' _] & _).
  exists it, q, it', q'. split; [done|]. split; [done|]. rewrite Hq, Hq', Heq, Hx, HP.
  by rewrite (correct_perm _ _ _ _ Hperm).
Qed.
