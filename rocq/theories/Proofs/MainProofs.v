(** Proofs about goslide.go: batches, schedule, layer types, accuracy. *)
From Verif.Spec Require Export MainSpec.
From Verif.Proofs Require Export BaseProofs MemProofs.
From Verif.Proofs Require Import XcProofs.
From Coq Require Import Lia ZifyBool ZifyNat.
Local Open Scope Z_scope.

(** * Layer types *)
Lemma types_ok n : 0 < n -> makeLayersTypes n = Ok (replicate (Z.to_nat (n - 1)) ReLU ++ [Softmax]).
Proof.
  intros Hn. unfold makeLayersTypes, make_slice. replace (n <? 0) with false by lia. cbn [mbind res_bind].
  assert (HF : forall k, (k <= Z.to_nat (n - 1))%nat ->
    foldM (fun ts i => sset ts i ReLU) (replicate (Z.to_nat n) ReLU) (seqZ 0 (Z.of_nat k)) = Ok (replicate (Z.to_nat n) ReLU)).
  { induction k as [|k IH]; intros Hk; [done|].
    rewrite seqZ_S, foldM_snoc, IH by lia. cbn [mbind res_bind].
    assert (sset (replicate (Z.to_nat n) ReLU) (0 + Z.of_nat k) ReLU = Ok (<[Z.to_nat (0 + Z.of_nat k) := ReLU]> (replicate (Z.to_nat n) ReLU))) as ->.
    { apply sset_Ok. rewrite replicate_length. split; [lia|done]. }
    f_equal. apply list_insert_id. apply lookup_replicate. split; [done|lia]. }
  rewrite <- (Z2Nat.id (n - 1)) at 1 by lia. rewrite HF by lia. cbn [mbind res_bind].
  replace (Z.to_nat n) with (Z.to_nat (n - 1) + 1)%nat by lia. rewrite replicate_add. cbn [replicate].
  apply sset_Ok. rewrite app_length, replicate_length. cbn [length]. split; [lia|].
  rewrite insert_app_r_alt by (rewrite replicate_length; lia). rewrite replicate_length, Nat.sub_diag. done.
Qed.
Lemma types_panic n : n <= 0 -> exists p, makeLayersTypes n = Panic p.
Proof.
  intros Hn. unfold makeLayersTypes, make_slice. destruct (Z.ltb_spec n 0); [by eexists|].
  assert (n = 0) as -> by lia. cbn. by eexists.
Qed.

(** * Schedule *)
Lemma go_div_pos a b : 0 < b -> 0 <= a <= maxInt64 -> go_div a b = Ok (a / b).
Proof.
  intros Hb Ha. unfold go_div. replace (b =? 0) with false by lia. f_equal.
  rewrite Z.quot_div_nonneg by lia. apply wrap64_small. unfold in_int64, minInt64, maxInt64 in *.
  assert (0 <= a / b) by (apply Z.div_pos; lia). assert (a / b <= a) by (apply Z.div_le_upper_bound; nia). lia.
Qed.
Lemma rem_due q t : 0 < q -> 0 <= t -> (Z.rem t q =? q - 1) = ((t + 1) mod q =? 0).
Proof.
  intros Hq Ht. rewrite Z.rem_mod_nonneg by lia. apply eq_bool_prop_intro. rewrite !Is_true_true, !Z.eqb_eq.
  pose proof (Z.div_mod t q ltac:(lia)). split; intros H1.
  - symmetry. apply (Z.mod_unique (t + 1) q (t / q + 1)); lia.
  - pose proof (Z.div_mod (t + 1) q ltac:(lia)). symmetry. apply (Z.mod_unique t q ((t + 1) / q - 1)); lia.
Qed.
Lemma schedule_spec cfg t : 0 < c_BatchSize cfg -> 0 <= t ->
  (sampled (c_LayerMode cfg) = true -> c_BatchSize cfg <= c_Rehash cfg <= maxInt64) ->
  (sampled (c_LayerMode cfg) = true -> c_BatchSize cfg <= c_Rebuild cfg <= maxInt64) ->
  schedule cfg t = Ok (sampled (c_LayerMode cfg) && due (c_Rehash cfg) (c_BatchSize cfg) t,
                       sampled (c_LayerMode cfg) && due (c_Rebuild cfg) (c_BatchSize cfg) t).
Proof.
  intros HB Ht H1 H2. unfold schedule.
  assert (HS : sampled (c_LayerMode cfg) = true ->
    (q ← go_div (c_Rehash cfg) (c_BatchSize cfg); r ← go_rem t q;
     q' ← go_div (c_Rebuild cfg) (c_BatchSize cfg); r' ← go_rem t q';
     Ok (r =? q - 1, r' =? q' - 1)) =
    Ok (due (c_Rehash cfg) (c_BatchSize cfg) t, due (c_Rebuild cfg) (c_BatchSize cfg) t)).
  { intros HS. specialize (H1 HS). specialize (H2 HS). rewrite !go_div_pos by lia. cbn [mbind res_bind].
    assert (0 < c_Rehash cfg / c_BatchSize cfg) by (apply Z.div_str_pos; lia).
    assert (0 < c_Rebuild cfg / c_BatchSize cfg) by (apply Z.div_str_pos; lia).
    unfold go_rem. rewrite !(proj2 (Z.eqb_neq _ 0)) by lia. cbn [mbind res_bind].
    by rewrite !rem_due by lia. }
  destruct (c_LayerMode cfg); cbn [sampled andb] in *; try done; by apply HS.
Qed.
Lemma schedule_panics cfg t : 0 < c_BatchSize cfg -> sampled (c_LayerMode cfg) = true ->
  0 <= c_Rehash cfg < c_BatchSize cfg \/ 0 <= c_Rebuild cfg < c_BatchSize cfg -> schedule cfg t = Panic PDivZero.
Proof.
  intros HB HS H. unfold schedule.
  assert ((q ← go_div (c_Rehash cfg) (c_BatchSize cfg); r ← go_rem t q;
     q' ← go_div (c_Rebuild cfg) (c_BatchSize cfg); r' ← go_rem t q';
     Ok (r =? q - 1, r' =? q' - 1)) = Panic PDivZero) as Hp.
  { assert (Hd : forall a, go_div a (c_BatchSize cfg) = Ok (wrap64 (Z.quot a (c_BatchSize cfg)))).
    { intros a. unfold go_div. by replace (c_BatchSize cfg =? 0) with false by lia. }
    assert (Hz : forall a, 0 <= a < c_BatchSize cfg -> wrap64 (Z.quot a (c_BatchSize cfg)) = 0).
    { intros a Ha. rewrite Z.quot_div_nonneg, Z.div_small by lia. done. }
    rewrite !Hd. cbn [mbind res_bind]. destruct H as [H|H].
    - by rewrite (Hz (c_Rehash cfg)) by done.
    - rewrite (Hz (c_Rebuild cfg)) by done. unfold go_rem. by destruct (wrap64 (c_Rehash cfg ÷ c_BatchSize cfg) =? 0). }
  by destruct (c_LayerMode cfg).
Qed.

(** * Batches *)
Lemma x_Scan_err pf s ok s1 : x_Err s <> None -> x_Scan pf s = Ok (ok, s1) -> x_Err s1 <> None.
Proof.
  intros He. unfold x_Scan. cbn. change (x_Err _) with (x_Err s) at 1.
  destruct (x_Err s) as [e|] eqn:E; [|done]. intros [= <- <-]. unfold x_Err in *. cbn. by rewrite E.
Qed.
Lemma x_calls_err pf n : forall s obs s1, x_Err s <> None -> x_calls pf n s = Ok (obs, s1) -> x_Err s1 <> None.
Proof.
  induction n as [|n IH]; intros s obs s1 He; cbn [x_calls]; [by intros [= <- <-]|].
  destruct (x_Scan pf s) as [[ok s2]|] eqn:E; cbn [mbind res_bind]; [|done].
  destruct (x_calls pf n s2) as [[obs2 s3]|] eqn:E2; cbn [mbind res_bind]; [|done].
  intros [= <- <-]. eapply IH; [|exact E2]. by eapply x_Scan_err.
Qed.
Lemma delivers_err pf s exs : delivers pf s exs -> x_Err s = None.
Proof.
  intros H. destruct (H 0%nat) as (s' & H1 & H2). destruct (x_Err s) eqn:E; [|done].
  exfalso. eapply x_calls_err; [|exact H1|exact H2]. by rewrite E.
Qed.
Lemma delivers_cons pf s e exs : delivers pf s (e :: exs) ->
  exists s1, x_Scan pf s = Ok (true, s1) /\ x_example s1 = e /\ delivers pf s1 exs.
Proof.
  intros H. destruct (H 0%nat) as (s' & H1 & H2). cbn [length Nat.add x_calls] in H1.
  destruct (x_Scan pf s) as [[ok s1]|] eqn:E; cbn [mbind res_bind] in H1; [|done].
  destruct (x_calls pf _ s1) as [[obs2 s3]|] eqn:E2; cbn [mbind res_bind] in H1; [|done].
  injection H1 as -> He Hobs Hs. subst. exists s1. split; [done|]. split; [done|].
  intros k. destruct (H k) as (s'' & H3 & H4). exists s''. split; [|done]. cbn [length Nat.add x_calls] in H3.
  rewrite E in H3. cbn [mbind res_bind] in H3.
  destruct (x_calls pf (length exs + k) s1) as [[obs4 s4]|]; cbn [mbind res_bind] in H3; [|done].
  injection H3 as -> ->. done.
Qed.
Lemma delivers_nil pf s : delivers pf s [] -> exists s1, x_Scan pf s = Ok (false, s1) /\ delivers pf s1 [].
Proof.
  intros H. destruct (H 1%nat) as (s' & H1 & H2). cbn [length Nat.add x_calls] in H1.
  destruct (x_Scan pf s) as [[ok s1]|] eqn:E; cbn [mbind res_bind] in H1; [|done].
  cbn [map replicate app] in H1. injection H1 as -> _ _. exists s1. split; [done|].
  intros k. destruct (H (S k)) as (s'' & H3 & H4). exists s''. split; [|done]. cbn [length Nat.add x_calls] in *.
  rewrite E in H3. cbn [mbind res_bind] in H3.
  destruct (x_calls pf k s1) as [[obs4 s4]|]; cbn [mbind res_bind] in H3; [|done].
  cbn [map replicate app] in *. injection H3 as _ -> ->. done.
Qed.
Lemma read_batch_spec pf n : forall s exs, delivers pf s exs ->
  exists s', read_batch pf n s = Ok (take n exs, s') /\ delivers pf s' (drop n exs).
Proof.
  induction n as [|n IH]; intros s exs H; cbn [read_batch]; [rewrite drop_0, take_0; eauto|].
  destruct exs as [|e exs].
  - destruct (delivers_nil _ _ H) as (s1 & -> & H1). cbn. eauto.
  - destruct (delivers_cons _ _ _ _ H) as (s1 & -> & He & H1). cbn [mbind res_bind negb].
    destruct (IH _ _ H1) as (s2 & -> & H2). cbn. rewrite He. eauto.
Qed.
Lemma open_spec w name exs : file_delivers w name exs ->
  exists s, open_scanner w name = Ok s /\ delivers (w_parseFloat w) s exs.
Proof.
  intros (r & s & H1 & H2 & H3). exists s. split; [|done]. unfold open_scanner. rewrite H1, H2. cbn [mbind res_bind].
  by rewrite (delivers_err _ _ _ H3).
Qed.

(** The files of C35 deliver their examples. *)
Lemma well_formed_file_delivers w name r h ht lines es P F L :
  w_open w name = Some r ->
  rd_final r = EOF -> no_stall (rd_chunks r) -> lines_fit (rd_data r) ->
  raw_lines (rd_data r) = h :: lines -> line_text h ht -> header_line ht P F L ->
  Forall2 (fun raw e => exists t, line_text raw t /\ example_line (w_parseFloat w) F L t (fst e) (snd e)) lines es ->
  file_delivers w name (map (fun e => example (fst e) (snd e)) es).
Proof.
  intros Ho H1 H2 H3 H4 H5 H6 H7. destruct (x_NewScanner r) as [s|p] eqn:En.
  - exists r, s. split; [done|]. split; [done|]. intros k.
    destruct (scan_file (w_parseFloat w) r h ht lines es P F L k H1 H2 H3 H4 H5 H6 H7) as (s' & Hr & He & _).
    unfold x_run in Hr. rewrite En in Hr. cbn [mbind res_bind] in Hr. exists s'. rewrite map_length.
    split; [|done]. rewrite Hr. by rewrite map_map.
  - destruct (scan_file (w_parseFloat w) r h ht lines es P F L 0 H1 H2 H3 H4 H5 H6 H7) as (s' & Hr & _).
    unfold x_run in Hr. by rewrite En in Hr.
Qed.

(** So do written files. *)
Lemma written_file_delivers w name fmt P F L es chunks early :
  w_open w name = Some (mkReader (write_file fmt P F L es) chunks EOF early) ->
  0 < P <= maxInt64 -> 0 < F <= maxInt64 -> 0 < L <= maxInt64 ->
  Forall (writable (w_parseFloat w) fmt F L) es -> no_stall chunks ->
  Forall (fun e => Z.of_nat (length (write_example fmt e)) < 65536) es ->
  file_delivers w name (map (fun e => example (fst e) (snd e)) es).
Proof.
  intros Ho H1 H2 H3 H4 H5 H6. set (r := mkReader _ _ _ _) in *. destruct (x_NewScanner r) as [s|p] eqn:En.
  - exists r, s. split; [done|]. split; [done|]. intros k.
    destruct (roundtrip (w_parseFloat w) fmt P F L es chunks early k H1 H2 H3 H4 H5 H6) as (s' & Hr & He & _).
    unfold x_run in Hr. fold r in Hr. rewrite En in Hr. cbn [mbind res_bind] in Hr. exists s'. rewrite map_length.
    split; [|done]. rewrite Hr. by rewrite map_map.
  - destruct (roundtrip (w_parseFloat w) fmt P F L es chunks early 0 H1 H2 H3 H4 H5 H6) as (s' & Hr & _).
    unfold x_run in Hr. fold r in Hr. by rewrite En in Hr.
Qed.

Lemma drop_batch (B : Z) (exs : list Example_) i : 0 <= B -> 0 <= i ->
  drop (Z.to_nat B) (drop (Z.to_nat (i * B)) exs) = drop (Z.to_nat ((i + 1) * B)) exs.
Proof. intros. rewrite drop_drop. f_equal. nia. Qed.

(** A loop over 0..n-1 related to another one. *)
Lemma mfold_rel {S S'} (f : S -> Z -> M S) (f' : S' -> Z -> M S') (n : Z) (R : Z -> S -> S' -> Prop) :
  (forall i s s', 0 <= i < n -> R i s s' -> forall m,
     match f' s' i m with
     | Ok (s2', m') => exists s2, f s i m = Ok (s2, m') /\ R (i + 1) s2 s2'
     | Panic p => f s i m = Panic p
     end) ->
  forall k s s', 0 <= k <= n -> R k s s' -> forall m,
    match mfold f' s' (seqZ k (n - k)) m with
    | Ok (s2', m') => exists s2, mfold f s (seqZ k (n - k)) m = Ok (s2, m') /\ R n s2 s2'
    | Panic p => mfold f s (seqZ k (n - k)) m = Panic p
    end.
Proof.
  intros Hf k s s' Hk. remember (Z.to_nat (n - k)) as j eqn:Ej. revert k s s' Hk Ej.
  induction j as [|j IH]; intros k s s' Hk Ej HR m.
  - assert (k = n) as -> by lia. rewrite Z.sub_diag, seqZ_nil by lia. cbn [mfold]. unfold mret, M_ret. by exists s.
  - rewrite seqZ_cons by lia. cbn [mfold]. unfold mbind, M_bind.
    specialize (Hf k s s' ltac:(lia) HR m). destruct (f' s' k m) as [[s2' m']|p]; [|by rewrite Hf].
    destruct Hf as (s2 & -> & HR2). specialize (IH (k + 1) s2 s2' ltac:(lia) ltac:(lia) HR2 m').
    replace (Z.succ k) with (k + 1) by lia. replace (Z.pred (n - k)) with (n - (k + 1)) by lia. exact IH.
Qed.

Lemma make_slice_pos {A} (x : A) n : 0 <= n -> make_slice x n = Ok (replicate (Z.to_nat n) x).
Proof. intros. unfold make_slice. by replace (n <? 0) with false by lia. Qed.

Ltac step_lift := match goal with
  | |- context [(lift (Ok ?x) ≫= ?f) ?m] => change ((lift (Ok x) ≫= f) m) with (f x m); cbv beta iota
  end.
Lemma epoch_spec w cfg cowId nb net e exs m :
  schedule_ok cfg nb e -> 0 <= nb -> file_delivers w (c_TrainData cfg) exs ->
  trainSvmEpoch w cfg cowId nb net e m = spec_epoch w cfg cowId nb net e exs m.
Proof.
  intros [HB HS H1 H2 [He Hi]] Hnb Hf. unfold trainSvmEpoch, spec_epoch.
  destruct (open_spec _ _ _ Hf) as (s & Hs & Hd).
  unfold mbind at 1, M_bind at 1. unfold lift at 1. rewrite Hs.
  unfold mbind at 1, M_bind at 1. unfold lift at 1. rewrite make_slice_pos by lia.
  match goal with |- (mfold ?f _ _ ≫= _) m = (mfold ?f' _ _ ≫= _) m =>
    pose proof (mfold_rel f f' nb (fun i st st' => st.1.2 = st'.1 /\ st.2 = st'.2 /\
      delivers (w_parseFloat w) st.1.1 (drop (Z.to_nat (i * c_BatchSize cfg)) exs))) as HR end.
  match type of HR with ?P -> _ => assert P as HP end.
  { intros i [[s0 net0] log0] [net' log'] Hi0 (E1 & E2 & Hd0) m0. cbn [fst snd] in *. subst net' log'.
    unfold train_batch. cbv zeta.
    assert (Ht : 0 <= e * nb + i <= maxInt64) by nia.
    rewrite wrap64_small by (unfold in_int64, minInt64, maxInt64 in *; lia).
    assert (Hev : (if 0 <? i then r ← go_rem (e * nb + i) (c_Stepsize cfg); Ok (r =? 0) else Ok false) =
       Ok ((0 <? i) && ((e * nb + i) mod c_Stepsize cfg =? 0))).
    { destruct (0 <? i); [|done]. unfold go_rem. replace (c_Stepsize cfg =? 0) with false by lia. cbn [mbind res_bind andb].
      by rewrite Z.rem_mod_nonneg by lia. }
    rewrite Hev. step_lift.
    destruct (read_batch_spec (w_parseFloat w) (Z.to_nat (c_BatchSize cfg)) _ _ Hd0) as (s1 & Hrb & Hd1).
    destruct ((if (0 <? i) && ((e * nb + i) mod c_Stepsize cfg =? 0) then evaluateSvm w cfg cowId 20 net0 else mret []) m0)
      as [[out m1]|p] eqn:Eo.
    2:{ rewrite !(bindM_Panic _ _ _ _ Eo). done. }
    rewrite !(bindM_Ok _ _ _ _ _ Eo).
    rewrite Hrb; step_lift.
    rewrite (delivers_err _ _ _ Hd1); step_lift.
    rewrite schedule_spec by (done || lia); step_lift.
    change (take (Z.to_nat (c_BatchSize cfg)) (drop (Z.to_nat (i * c_BatchSize cfg)) exs)) with (batch (c_BatchSize cfg) i exs).
    unfold mbind, M_bind. destruct (network_ProcessInput _ _ _ _ _ _ _ m1) as [[[ins net1] m2]|p]; [|done].
    eexists. split; [done|]. cbn [fst snd]. split; [done|]. split; [done|]. rewrite <- drop_batch by lia. done. }
  specialize (HR HP 0 (s, net, []) (net, []) ltac:(lia)). cbn [fst snd] in HR.
  specialize (HR ltac:(split; [done|]; split; [done|]; by rewrite Z.mul_0_l, drop_0) m).
  rewrite Z.sub_0_r in HR. unfold mbind, M_bind in *.
  destruct (mfold _ (net, []) _ m) as [[[net' log'] m']|p] eqn:E'.
  - destruct HR as ([[s2 net2] log2] & HR & E1 & E2 & _). cbn in E1, E2. subst. by rewrite HR.
  - by rewrite HR.
Qed.

Lemma evaluate_spec w cfg cowId nb net exs m :
  0 <= c_BatchSize cfg -> 0 <= nb -> file_delivers w (c_TestData cfg) exs ->
  evaluateSvm w cfg cowId nb net m = spec_evaluate w cfg cowId nb net exs m.
Proof.
  intros HB Hnb Hf. unfold evaluateSvm, spec_evaluate. cbv zeta.
  destruct (open_spec _ _ _ Hf) as (s & Hs & Hd).
  unfold mbind at 1, M_bind at 1. unfold lift at 1. rewrite Hs.
  unfold mbind at 1, M_bind at 1. unfold lift at 1. rewrite make_slice_pos by lia.
  match goal with |- (mfold ?f _ _ ≫= _) m = (mfold ?f' _ _ ≫= _) m =>
    pose proof (mfold_rel f f' nb (fun i st st' => st.1.1.2 = st'.1.1 /\ st.1.2 = st'.1.2 /\ st.2 = st'.2 /\
      delivers (w_parseFloat w) st.1.1.1 (drop (Z.to_nat (i * c_BatchSize cfg)) exs))) as HR end.
  match type of HR with ?P -> _ => assert P as HP end.
  { intros i [[[s0 net0] tot0] log0] [[net' tot'] log'] Hi0 (E1 & E2 & E3 & Hd0) m0. cbn [fst snd] in *. subst net' tot' log'.
    unfold evaluate_batch. cbv zeta.
    destruct (read_batch_spec (w_parseFloat w) (Z.to_nat (c_BatchSize cfg)) _ _ Hd0) as (s1 & Hrb & Hd1).
    rewrite Hrb; step_lift.
    rewrite (delivers_err _ _ _ Hd1); step_lift.
    change (take (Z.to_nat (c_BatchSize cfg)) (drop (Z.to_nat (i * c_BatchSize cfg)) exs)) with (batch (c_BatchSize cfg) i exs).
    unfold mbind, M_bind. destruct (network_PredictClass _ _ _ _ m0) as [[[correct net1] m2]|p]; [|done].
    eexists. split; [done|]. cbn [fst snd]. split; [done|]. split; [done|]. split; [done|]. rewrite <- drop_batch by lia. done. }
  specialize (HR HP 0 (s, net, 0, []) (net, 0, []) ltac:(lia)). cbn [fst snd] in HR.
  specialize (HR ltac:(split; [done|]; split; [done|]; split; [done|]; by rewrite Z.mul_0_l, drop_0) m).
  rewrite Z.sub_0_r in HR. unfold mbind, M_bind in *.
  destruct (mfold _ (net, 0, []) _ m) as [[[[net' tot'] log'] m']|p] eqn:E'.
  - destruct HR as ([[[s2 net2] tot2] log2] & HR & E1 & E2 & E3 & _). cbn in E1, E2, E3. subst. by rewrite HR.
  - by rewrite HR.
Qed.

(** The batches are the first [nb * B] examples. *)
Lemma batches_concat B nb exs : 0 <= B -> 0 <= nb ->
  concat (map (fun i => batch B i exs) (seqZ 0 nb)) = take (Z.to_nat (nb * B)) exs.
Proof.
  intros HB Hnb. rewrite <- (Z2Nat.id nb) by done. induction (Z.to_nat nb) as [|k IH]; [done|].
  rewrite seqZ_S, map_app, concat_app, IH. cbn [map concat]. rewrite app_nil_r. unfold batch.
  rewrite Z.add_0_l, take_take_drop. f_equal. lia.
Qed.
Lemma batch_length B i exs : 0 <= B -> 0 <= i ->
  Z.of_nat (length (batch B i exs)) = Z.min B (Z.max 0 (Z.of_nat (length exs) - i * B)).
Proof. intros. unfold batch. rewrite take_length, drop_length. nia. Qed.

Lemma batches_total B nb (exs : list Example_) : 0 <= B -> 0 <= nb -> nb * B <= Z.of_nat (length exs) ->
  Z.of_nat (length (concat (map (fun i => batch B i exs) (seqZ 0 nb)))) = nb * B.
Proof. intros HB Hn Hl. rewrite batches_concat by done. rewrite take_length. nia. Qed.

(** * Accuracy *)
Lemma mfold_inv {S A} (f : S -> A -> M S) (I : list A -> S -> mem -> Prop) :
  (forall done x s m s' m', I done s m -> f s x m = Ok (s', m') -> I (done ++ [x]) s' m') ->
  forall xs done s m s' m', I done s m -> mfold f s xs m = Ok (s', m') -> I (done ++ xs) s' m'.
Proof.
  intros Hf. induction xs as [|x xs IH]; intros done s m s' m' HI; cbn [mfold].
  - intros [= <- <-]. by rewrite app_nil_r.
  - intros (s1 & m1 & H1 & H2)%bindM_inv. rewrite cons_middle, app_assoc. eapply IH; [|exact H2]. by eapply Hf.
Qed.

Lemma predict_bounds E c ne exs m k n' m' : network_PredictClass E c ne exs m = Ok ((k, n'), m') ->
  0 <= k <= Z.of_nat (length exs).
Proof.
  unfold network_PredictClass. intros (ls & m1 & _ & H)%bindM_inv. apply bindM_inv in H as (lp & m2 & _ & H).
  apply bindM_inv in H as (cp & m3 & Hf & H). injection H as <- _ _.
  match type of Hf with mfold ?f _ _ _ = _ =>
    pose proof (mfold_inv f (fun dn k _ => 0 <= k <= Z.of_nat (length dn))) as HI end.
  match type of HI with ?P -> _ => assert P as HP end.
  { intros dn [i ex] s m0 s' m0' Hs Hb. apply bindM_inv in Hb as (pc & m4 & _ & Hb). injection Hb as <- _.
    rewrite app_length. cbn [length]. destruct (intSliceContains _ _); lia. }
  specialize (HI HP (indexed exs) [] 0 m2 cp m3 ltac:(cbn; lia) Hf). cbn [app] in HI.
  unfold indexed in HI. rewrite zip_with_length, seqZ_length in HI. lia.
Qed.

Lemma evaluate_counts w cfg c nb net exs m log m' :
  0 < c_BatchSize cfg -> 0 < nb -> file_delivers w (c_TestData cfg) exs ->
  evaluateSvm w cfg c nb net m = Ok (log, m') ->
  exists tot iters, 0 <= tot <= Z.min (nb * c_BatchSize cfg) (Z.of_nat (length exs)) /\
    length iters = Z.to_nat nb /\
    log = iters ++ [LogOverall (fdiv (f_of_Z tot) (fmul (f_of_Z nb) (f_of_Z (c_BatchSize cfg))))].
Proof.
  intros HB Hnb Hf. rewrite (evaluate_spec _ _ _ _ _ _ _ (Z.lt_le_incl _ _ HB) (Z.lt_le_incl _ _ Hnb) Hf). unfold spec_evaluate.
  intros ([[net' tot] log'] & m1 & Hm & H)%bindM_inv. injection H as <- <-.
  exists tot, log'. cbv zeta in *.
  match type of Hm with mfold ?f _ _ _ = _ =>
    pose proof (mfold_inv f (fun dn '(_, tot, log) _ => dn = seqZ 0 (Z.of_nat (length dn)) ->
      0 <= tot <= Z.min (Z.of_nat (length dn) * c_BatchSize cfg) (Z.of_nat (length exs)) /\ length log = length dn)) as HI end.
  match type of HI with ?P -> _ => assert P as HP end.
  { intros dn i [[n0 t0] l0] m0 [[n1 t1] l1] m0' Hs Hb Hdn.
    rewrite app_length in Hdn. cbn [length] in Hdn. rewrite Nat.add_1_r, seqZ_S in Hdn.
    apply app_inj_tail in Hdn as [Hdn ->]. specialize (Hs Hdn) as [Hs Hl].
    apply bindM_inv in Hb as ([cr n2] & m4 & Hp & Hb). injection Hb as <- <- <- _.
    apply predict_bounds in Hp. rewrite batch_length in Hp by lia. rewrite !app_length. cbn [length]. split; [|lia].
    rewrite Z.add_0_l in Hp. nia. }
  specialize (HI HP (seqZ 0 nb) [] (net, 0, []) m _ _ ltac:(intros _; cbn [length Z.of_nat]; lia) Hm). cbn [app] in HI.
  rewrite seqZ_length, Z2Nat.id in HI by lia. specialize (HI eq_refl). destruct HI as [H1 H2]. done.
Qed.

Lemma epoch_panics w cfg c nb net e exs m :
  0 < c_BatchSize cfg -> sampled (c_LayerMode cfg) = true ->
  0 <= c_Rehash cfg < c_BatchSize cfg \/ 0 <= c_Rebuild cfg < c_BatchSize cfg ->
  0 < nb -> file_delivers w (c_TrainData cfg) exs ->
  trainSvmEpoch w cfg c nb net e m = Panic PDivZero.
Proof.
  intros HB HS H Hnb Hf. unfold trainSvmEpoch. destruct (open_spec _ _ _ Hf) as (s & Hs & Hd).
  rewrite Hs. step_lift. rewrite make_slice_pos by lia. step_lift.
  apply bindM_Panic. rewrite seqZ_cons by lia. cbn [mfold]. apply bindM_Panic.
  unfold train_batch. cbv zeta. change (0 <? 0) with false. cbv iota. step_lift.
  match goal with |- (mret ?x ≫= ?f) ?m = _ => change (f x m = Panic PDivZero); cbv beta iota end.
  destruct (read_batch_spec (w_parseFloat w) (Z.to_nat (c_BatchSize cfg)) _ _ Hd) as (s1 & Hrb & Hd1).
  rewrite Hrb; step_lift. rewrite (delivers_err _ _ _ Hd1); step_lift.
  by rewrite schedule_panics.
Qed.

Lemma main_panics w cfg m : c_NumLayer cfg <= 0 -> exists p, main w cfg m = Panic p.
Proof.
  intros H. destruct (types_panic _ H) as [p Hp]. unfold main. rewrite Hp.
  destruct (go_div (c_TotRecords cfg) (c_BatchSize cfg)) as [a|q]; [|by exists q]. step_lift.
  destruct (go_div (c_TotRecordsTest cfg) (c_BatchSize cfg)) as [a'|q]; [|by exists q]. step_lift.
  by exists p.
Qed.
