(** Property C79: which nodes the hash tables give for an input. *)
From Verif.Spec Require Import RetrieveSpec.
From Verif.Proofs Require Import RetrieveProofs NetCalls.
From Verif.Proofs Require LayerModes.
From Verif.Properties Require Import NetProps TrainProps.
Local Open Scope Z_scope.

(** * C79 The tables answer an input with the nodes in its buckets, and a node's own weights with the node *)

(** After a training call that rehashes. *)
Theorem C79_rehash : forall E c num sizes types batch lr inputDim k l rp sparsity m n m' os n' m'' exs iter rebuild ins n'' m3,
  e_LoadWeight E = false -> dims_ok E num sizes batch inputDim ->
  network_New E c num sizes types batch lr inputDim k l rp sparsity m = Ok (n, m') ->
  call_ops E c n os m' = Ok (n', m'') ->
  network_ProcessInput E c n exs iter true rebuild m'' = Ok ((ins, n''), m3) ->
  exists nv, live E m3 c n nv /\
    forall j lv sp kj lj rj prev, nv_layers nv !! j = Some lv -> sparsity !! j = Some sp ->
      k !! j = Some kj -> l !! j = Some lj -> rp !! j = Some rj -> (inputDim :: sizes) !! j = Some prev ->
      fltb sp fone = true -> 0 <= rj <= 62 -> answers E lv /\ finds_twins E kj lj prev lv.
Proof. exact rehash_retrieves. Qed.
Print Assumptions C79_rehash.

(** In a new network, after any number of predictions. *)
Theorem C79_new : forall E c num sizes types batch lr inputDim k l rp sparsity m n m' os n' m'',
  e_LoadWeight E = false -> dims_ok E num sizes batch inputDim ->
  network_New E c num sizes types batch lr inputDim k l rp sparsity m = Ok (n, m') ->
  call_ops E c n (map OpPredict os) m' = Ok (n', m'') ->
  exists nv, live E m'' c n nv /\
    forall j lv kj lj rj prev, nv_layers nv !! j = Some lv ->
      k !! j = Some kj -> l !! j = Some lj -> rp !! j = Some rj -> (inputDim :: sizes) !! j = Some prev ->
      0 <= rj <= 62 -> answers E lv /\ finds_twins E kj lj prev lv.
Proof. exact new_predict_retrieves. Qed.
Print Assumptions C79_new.

(** The second layer of the demonstration network when it is new: given the weights of node 1, both tables list node 1. *)
Example C79_ex : exists nv lv0 lv1 v retrieved, live netE net_m 1 net_n nv /\ nv_layers nv = [lv0; lv1] /\
  lv_nodes lv1 !! 1%nat = Some v /\
  found netE (lv_hash lv1) (lv_tables lv1) (zip_with mkPair [0; 1; 2] (v_w v)) retrieved /\
  forall a, (a < 2)%nat -> exists ids, retrieved !! a = Some ids /\ 1 ∈ ids.
Proof.
  pose proof net_made_Ok as HM. revert HM. generalize net_n, net_m. intros n m HM.
  destruct (C66_new netE _ _ _ _ _ _ _ _ _ _ _ _ _ _ eq_refl net_dims HM) as (nv & L & HS & H).
  destruct (C79_new netE _ _ _ _ _ _ _ _ _ _ _ _ _ _ [] _ _ eq_refl net_dims HM eq_refl) as (nv' & L' & HA).
  rewrite (live_unique _ _ _ _ _ _ L' L) in HA. clear nv' L'. pose proof (proj1 HS) as HN.
  destruct (nv_layers nv) as [|lv0 [|lv1 [|]]] eqn:EV; try (cbn in HN; lia).
  destruct (H 1%nat lv1 _ _ _ _ eq_refl eq_refl eq_refl eq_refl eq_refl) as [_ N1].
  destruct (HA 1%nat lv1 1 2 2 3 eq_refl eq_refl eq_refl eq_refl eq_refl ltac:(lia)) as [_ HT].
  destruct (proj2 HS 1%nat lv1 ltac:(by rewrite EV)) as (? & ? & ? & ? & lj & ? & Hsz & _ & _ & _ & Hl & _ & S). injection Hl as <-. injection Hsz as <-.
  assert (exists v, lv_nodes lv1 !! 1%nat = Some v /\ length (v_w v) = 3%nat) as (v & Hv & Hw).
  { rewrite N1. eexists. split; [vm_compute; reflexivity|]. vm_compute. reflexivity. }
  destruct (HT 1%nat v (zip_with mkPair [0; 1; 2] (v_w v)) Hv) as (rs & HF & HR).
  - destruct (v_w v) as [|w0 [|w1 [|w2 [|]]]]; try discriminate Hw. split; reflexivity.
  - split; [lia|]. split; [lia|]. intros HE. discriminate HE.
  - exists nv, lv0, lv1, v, rs. split; [exact L|]. split; [exact EV|]. split; [exact Hv|]. split; [exact HF|].
    intros a Ha. destruct (HR a) as (ids & Hi & HC); [rewrite (ss_l _ _ _ _ _ _ _ _ _ S); lia|].
    exists ids. split; [exact Hi|]. destruct HC as [HC|[HC _]]; [exact HC|]. exfalso.
    pose proof (HA 1%nat lv1 1 2 2 3 eq_refl eq_refl eq_refl eq_refl eq_refl ltac:(lia)) as [HAn _].
    destruct (HAn _ _ HF a) as (x & ids' & _ & Hi' & HB); [rewrite (ss_l _ _ _ _ _ _ _ _ _ S); lia|].
    rewrite Hi in Hi'. injection Hi' as <-. destruct HB as (HD & _ & HB & _).
    assert (Hsub : ids ⊆+ seqZ 0 2).
    { apply NoDup_submseteq; [exact HD|]. intros k Hk. destruct (HB k Hk) as (H0 & v' & Hv' & _). apply elem_of_seqZ.
      apply lookup_lt_Some in Hv'. rewrite (ss_size _ _ _ _ _ _ _ _ _ S) in Hv'. cbn in Hv'. lia. }
    apply submseteq_length in Hsub. rewrite seqZ_length, HC in Hsub. lia.
Qed.
