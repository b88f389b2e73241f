(** Retrieval from tables that list every node. *)
From Verif.Spec Require Import RetrieveSpec.
From Verif.Spec Require HashSpec SrpSpec.
From Verif.Proofs Require Import NetCalls.
From Verif.Proofs Require LayerModes WtaProofs DwtaProofs MinhashProofs SrpProofs.
From stdpp Require Import sorting.
From Coq Require Import Lia ZifyBool ZifyNat.
Local Open Scope Z_scope.

Lemma address_det E lv w ix ix' : address E lv w ix -> address E lv w ix' -> ix = ix'.
Proof.
  intros (hs & H1 & H2) (hs' & H1' & H2'). apply LayerModes.weight_codes_iff in H1, H1'. rewrite H1 in H1'. injection H1' as <-. congruence.
Qed.
Lemma last_sorted (share ids : list Z) : StronglySorted Z.lt share -> ids ≡ₚ drop (length share - 128) share ->
  NoDup ids /\ (length ids <= 128)%nat /\ (forall k, k ∈ ids -> k ∈ share) /\
  (forall k, k ∈ share -> k ∈ ids \/ length ids = 128%nat /\ Forall (fun j => k < j) ids).
Proof.
  intros HS HP. set (d := (length share - 128)%nat) in *.
  assert (HN : NoDup share).
  { clear -HS. induction HS as [|x l HS IH HF]; constructor; [|done]. intros Hx. rewrite Forall_forall in HF. specialize (HF x Hx). lia. }
  rewrite <- (take_drop d share) in HS, HN. apply NoDup_app in HN as (_ & _ & HN).
  split; [by rewrite HP|]. split; [rewrite (Permutation_length HP), drop_length; lia|]. split.
  { intros k Hk. rewrite HP in Hk. rewrite <- (take_drop d share). apply elem_of_app. by right. }
  intros k Hk. rewrite <- (take_drop d share) in Hk. apply elem_of_app in Hk as [Hk|Hk]; [|left; by rewrite HP]. right. split.
  - rewrite (Permutation_length HP), drop_length. assert (d <> 0)%nat; [|lia]. intros ->. by apply elem_of_nil in Hk.
  - rewrite HP. apply Forall_forall. intros j Hj. by apply (elem_of_StronglySorted_app Z.lt (take d share) (drop d share)).
Qed.

Lemma findable_bucket E lv : findable E lv -> 
  forall ix rs, lsh_RetrieveRaw (lv_tables lv) ix = Ok rs -> forall a, Z.of_nat a < lv_l lv ->
    exists x ids, ix !! a = Some x /\ rs !! a = Some ids /\ bucket_list E lv a x ids.
Proof.
  intros (addrs & F1 & _ & F3) ix rs Hrs a Ha. destruct (F3 _ _ Hrs (Z.of_nat a) ltac:(lia)) as (x & ids & Hx & Hids & HS). cbn zeta in HS.
  rewrite Nat2Z.id in Hx, Hids, HS. destruct HS as [_ HP]. exists x, ids. split; [done|]. split; [done|].
  set (share := filter _ _) in HP.
  assert (HS : StronglySorted Z.lt share) by (apply LayerModes.filter_sorted; apply LayerModes.seqZ_sorted).
  destruct (last_sorted _ _ HS HP) as (H1 & H2 & H3 & H4). split; [done|]. split; [done|]. split.
  - intros k Hk. apply H3, elem_of_list_filter in Hk as [Hk Hr]. apply elem_of_seqZ in Hr. split; [lia|].
    destruct (lookup_lt_is_Some_2 (lv_nodes lv) (Z.to_nat k)) as [v Hv]; [lia|]. exists v. split; [done|].
    destruct (Forall2_lookup_l _ _ _ _ _ F1 Hv) as (ix' & Hix' & HA). rewrite Hix' in Hk. exists ix'. done.
  - intros k v Hv (ix' & HA & Hx'). apply H4. apply elem_of_list_filter. pose proof (lookup_lt_Some _ _ _ Hv). split; [|apply elem_of_seqZ; lia].
    destruct (Forall2_lookup_l _ _ _ _ _ F1 Hv) as (ix2 & Hix2 & HA2). rewrite (address_det _ _ _ _ _ HA HA2) in Hx'.
    rewrite Nat2Z.id, Hix2. done.
Qed.
Lemma findable_answers E lv : findable E lv -> answers E lv.
Proof.
  intros HF cur rs (codes & bs & HC & HB & HR) a Ha. destruct (findable_bucket _ _ HF _ _ HR a Ha) as (x & ids & Hx & Hi & HL).
  exists x, ids. split; [|done]. exists codes, bs. done.
Qed.

(** * An input that is a node's weight vector *)
Lemma twin_codes E k l prev lv w cur codes : made_hashers E k l prev (lv_hash lv) -> Z.of_nat (length w) = prev ->
  lists_vector cur w -> twin_conditions E k l prev w -> weight_codes E (lv_hash lv) w codes -> input_codes E (lv_hash lv) cur codes.
Proof.
  intros HM HL [HI HV] (HK & HP & HT) HW. rewrite HL in HI. unfold made_hashers in HM. unfold weight_codes in HW. unfold input_codes.
  assert (wrap64 (k * l) = k * l) as Ewr by (apply wrap64_small; unfold in_int64, minInt64, maxInt64; lia). rewrite Ewr in HM.
  destruct (e_Hash E).
  - destruct HW as (t & Ht & HW). exists t. split; [done|]. rewrite WtaProofs.wta_GetHash_values. by rewrite HV.
  - destruct HW as (t & Ht & HW). exists t. split; [done|].
    destruct HM as (g & d & g1 & E2 & Ht2). rewrite Ht2 in Ht. injection Ht as ->.
    destruct (HT eq_refl) as [HT1 HT2].
    rewrite (DwtaProofs.dwta_sparse_full (e_log2 E) (k * l) prev g t g1 cur 30 ltac:(lia) ltac:(lia) ltac:(lia) HT1 E2 HI).
    + by rewrite (WtaProofs.dense_of_full _ _ HI), HV.
    + rewrite <- HV in HT2. apply Forall_fmap in HT2. exact HT2.
  - destruct HW as (t & Ht & HW). exists t. split; [done|]. rewrite MinhashProofs.mn_easy_agree. cbn [map]. by rewrite HV.
  - destruct HW as (t & Ht & HW). exists t. split; [done|].
    destruct HM as (g & d & g1 & E2 & Ht2). rewrite Ht2 in Ht. injection Ht as ->.
    destruct (SrpProofs.srp_sparse_dense prev (k * l) 32 g t g1 prev cur ltac:(lia) ltac:(lia) ltac:(lia) E2 ltac:(lia)) as (hs & H1 & H2).
    + rewrite HI. apply LayerModes.seqZ_sorted.
    + rewrite (WtaProofs.dense_of_full _ _ HI), HV in H2. congruence.
  - done.
Qed.
Lemma findable_twins E k l prev lv : findable E lv -> made_hashers E k l prev (lv_hash lv) ->
  (forall i v, lv_nodes lv !! i = Some v -> Z.of_nat (length (v_w v)) = prev) -> finds_twins E k l prev lv.
Proof.
  intros HF HM HP i v cur Hv HL HT. pose proof HF as (addrs & F1 & F2 & _).
  destruct (Forall2_lookup_l _ _ _ _ _ F1 Hv) as (ix & Hix & HA). destruct (F2 _ _ Hix) as (rs & Hrs).
  exists rs. pose proof HA as (codes & HC & HB). split.
  - exists codes, ix. split; [|done]. eapply twin_codes; eauto.
  - intros a Ha. destruct (findable_bucket _ _ HF _ _ Hrs a Ha) as (x & ids & Hx & Hi & _ & _ & _ & HB2).
    exists ids. split; [done|]. apply (HB2 _ _ Hv). exists ix. done.
Qed.

(** * Networks *)
Lemma shape_twins E num sizes types batch inputDim k l rp nv j lv kj lj prev :
  dims_ok E num sizes batch inputDim -> net_shape E num sizes types batch inputDim k l rp nv ->
  nv_layers nv !! j = Some lv -> k !! j = Some kj -> l !! j = Some lj -> (inputDim :: sizes) !! j = Some prev ->
  findable E lv -> answers E lv /\ finds_twins E kj lj prev lv.
Proof.
  intros HD [HNum HS] Hlv Hk Hl Hp HF. split; [by apply findable_answers|].
  destruct (HS _ _ Hlv) as (size & prev' & ty & k' & l' & r' & _ & Hp' & _ & Hk' & Hl' & _ & S).
  assert (prev' = prev) as -> by congruence. assert (k' = kj) as -> by congruence. assert (l' = lj) as -> by congruence.
  assert (0 <= prev).
  { destruct HD as (_ & HD0 & HD). destruct j as [|j]; [by injection Hp as <-|]. cbn in Hp.
    destruct (lookup_lt_is_Some_2 (inputDim :: sizes) j) as [pp Hpp]; [apply lookup_lt_Some in Hp; cbn; lia|].
    eapply HD; [|exact Hp|exact Hpp]. apply lookup_lt_Some in Hlv. lia. }
  apply findable_twins; [done| |].
  - pose proof (ss_hash _ _ _ _ _ _ _ _ _ S) as HH. by rewrite Z2Nat.id in HH.
  - intros i v Hv. rewrite (sh_w _ _ _ _ _ _ (ss_nodes _ _ _ _ _ _ _ _ _ S _ _ Hv)). lia.
Qed.
Lemma rehash_retrieves E c num sizes types batch lr inputDim k l rp sparsity m n m' os n' m'' exs iter rebuild ins n'' m3 :
  e_LoadWeight E = false -> dims_ok E num sizes batch inputDim ->
  network_New E c num sizes types batch lr inputDim k l rp sparsity m = Ok (n, m') ->
  call_ops E c n os m' = Ok (n', m'') ->
  network_ProcessInput E c n exs iter true rebuild m'' = Ok ((ins, n''), m3) ->
  exists nv, live E m3 c n nv /\
    forall j lv sp kj lj rj prev, nv_layers nv !! j = Some lv -> sparsity !! j = Some sp ->
      k !! j = Some kj -> l !! j = Some lj -> rp !! j = Some rj -> (inputDim :: sizes) !! j = Some prev ->
      fltb sp fone = true -> 0 <= rj <= 62 -> answers E lv /\ finds_twins E kj lj prev lv.
Proof.
  intros HL HD HN HO HP. destruct (rehash_findable _ _ _ _ _ _ _ _ _ _ _ _ _ _ _ _ _ _ _ _ _ _ _ _ HL HD HN HO HP) as (nv & L & HF).
  exists nv. split; [done|]. intros j lv sp kj lj rj prev Hlv Hsp Hk Hl Hrj Hp Hlt Hr.
  specialize (HF j lv sp rj Hlv Hsp Hrj Hlt Hr).
  assert (HO2 : call_ops E c n (os ++ [OpTrain exs iter true rebuild]) m' = Ok (n'', m3)).
  { destruct (shape_calls _ _ _ _ _ _ _ _ _ _ _ _ _ _ _ _ _ _ HL HD HN HO) as [-> _]. unfold call_ops in *. rewrite MemProofs.mfold_app.
    unfold mbind, M_bind. rewrite HO. cbn [mfold call_op]. unfold mbind, M_bind. rewrite HP. done. }
  destruct (shape_calls _ _ _ _ _ _ _ _ _ _ _ _ _ _ _ _ _ _ HL HD HN HO2) as [_ (nv' & L' & HS & _)].
  rewrite (live_unique _ _ _ _ _ _ L' L) in HS. by eapply shape_twins.
Qed.
Lemma new_predict_retrieves E c num sizes types batch lr inputDim k l rp sparsity m n m' os n' m'' :
  e_LoadWeight E = false -> dims_ok E num sizes batch inputDim ->
  network_New E c num sizes types batch lr inputDim k l rp sparsity m = Ok (n, m') ->
  call_ops E c n (map OpPredict os) m' = Ok (n', m'') ->
  exists nv, live E m'' c n nv /\
    forall j lv kj lj rj prev, nv_layers nv !! j = Some lv ->
      k !! j = Some kj -> l !! j = Some lj -> rp !! j = Some rj -> (inputDim :: sizes) !! j = Some prev ->
      0 <= rj <= 62 -> answers E lv /\ finds_twins E kj lj prev lv.
Proof.
  intros HL HD HN HO. destruct (new_predict_findable _ _ _ _ _ _ _ _ _ _ _ _ _ _ _ _ _ _ HL HD HN HO) as (nv & L & HF).
  exists nv. split; [done|]. intros j lv kj lj rj prev Hlv Hk Hl Hrj Hp Hr. specialize (HF j lv rj Hlv Hrj Hr).
  destruct (shape_calls _ _ _ _ _ _ _ _ _ _ _ _ _ _ _ _ _ _ HL HD HN HO) as [_ (nv' & L' & HS & _)].
  rewrite (live_unique _ _ _ _ _ _ L' L) in HS. by eapply shape_twins.
Qed.
