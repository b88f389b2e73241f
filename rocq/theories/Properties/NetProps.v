(** Properties C52, C54, C55 and C64: what a network computes (package network). *)
From Verif.Spec Require Import LayerSpec InferSpec.
From Verif.Proofs Require Import NetInfer SoftmaxProofs.
Local Open Scope Z_scope.

(** * A concrete network for the examples: four inputs, three ReLU nodes, two softmax nodes; two
      input slots; sparse random projections; training samples the second layer, prediction is dense. *)
Definition netE : env :=
  mkEnv true false SparseRandomProjectionHashFunction LayerMode4 (fun x => x) (fun x _ => x) (fun x => x) (fun _ x => x) 100.
Definition net0 : mem :=
  mkMem [] [] [] [] [] [] [] [] [] [] (mkRng (fun n => Z.of_nat n * 7919) 0)
    (fun n => f_of_Z (100 * (Z.of_nat n mod 5) - 100)) 0 0.
Definition net_half : float64 := fdiv fone (f_of_Z 2).
Notation net_made :=
  (network_New netE 1 2 [3; 2] [ReLU; Softmax] 2 net_half 4 [1; 1] [2; 2] [2; 2] [fone; net_half; fone; fone] net0).
Definition net_n : Network := match net_made with Ok (n, _) => n | Panic _ => mkNet 0 0 fzero 0 [] end.
Definition net_m : mem := match net_made with Ok (_, m) => m | Panic _ => net0 end.
Definition net_exs : list Example_ :=
  [mkExample (Some [mkPair 0 fone; mkPair 2 fone]) (Some [0]); mkExample (Some [mkPair 3 fone]) (Some [1])].

(** * C64 A network stays one network under every sequence of calls *)
Theorem C64_live : forall E c num sizes types batch lr inputDim k l rp sparsity m n m' os n' m'',
  e_LoadWeight E = false -> dims_ok E num sizes batch inputDim ->
  network_New E c num sizes types batch lr inputDim k l rp sparsity m = Ok (n, m') ->
  call_ops E c n os m' = Ok (n', m'') ->
  n' = n /\ exists nv, live E m'' c n nv.
Proof. exact new_calls_live. Qed.
Print Assumptions C64_live.

Definition fine {A} (r : res A) : bool := match r with Ok _ => true | Panic _ => false end.
Lemma net_dims : dims_ok netE 2 [3; 2] 2 4.
Proof.
  split; [lia|]. split; [lia|]. intros i size prev Hi Hs Hp.
  destruct i as [|[|i]]; cbn in Hs, Hp; [..|lia]; injection Hs as <-; injection Hp as <-; (split; [lia|]; split; [lia|]; split; [lia|done]).
Qed.
Lemma net_made_Ok : net_made = Ok (net_n, net_m).
Proof.
  assert (H : fine net_made = true) by (vm_compute; reflexivity).
  unfold net_n, net_m. revert H. generalize net_made. intros [[n m]|]; [reflexivity|discriminate].
Qed.
Definition net_ops : list net_op := [OpTrain net_exs 0 true true; OpPredict net_exs; OpTrain net_exs 1 false false].
Lemma net_live os : fine (call_ops netE 1 net_n os net_m) = true ->
  exists m nv, call_ops netE 1 net_n os net_m = Ok (net_n, m) /\ live netE m 1 net_n nv.
Proof.
  pose proof net_made_Ok as HM. revert HM. generalize net_n, net_m. intros n m HM.
  destruct (call_ops netE 1 n os m) as [[n' m']|] eqn:E; [|discriminate]. intros _.
  destruct (C64_live netE _ _ _ _ _ _ _ _ _ _ _ _ _ _ _ _ _ eq_refl net_dims HM E) as [-> [nv L]]. exists m', nv. split; [reflexivity|exact L].
Qed.
Example C64_live_ex : exists m nv, call_ops netE 1 net_n net_ops net_m = Ok (net_n, m) /\ live netE m 1 net_n nv.
Proof. apply net_live. vm_compute. reflexivity. Qed.

(** * C52 Softmax normalisation *)
Theorem C52_softmax : forall E c arr lls nv j ll lv anpl li i label sp m in_ anpl' lp' m',
  lays_ok lls -> net_rep m c arr lls nv -> lls !! j = Some ll -> nv_layers nv !! j = Some lv ->
  is_softmax (lv_type lv) = true ->
  layer_Query E c (ll_ptr ll) anpl li i label sp m = Ok ((in_, anpl', lp'), m') ->
  let ids := active_of anpl' li in
  exists cur acts mx lv' g,
    lp' = ll_ptr ll /\ net_rep m' c arr lls (mkNV (<[j := lv']> (nv_layers nv)) g (nv_seeds nv)) /\
    sget anpl li = Ok cur /\ activations lv cur ids acts /\ greatest acts mx /\
    anpl' = <[Z.to_nat (li + 1) := zip_with mkPair ids (exps E acts mx)]> anpl /\
    lv_norm lv' !! Z.to_nat i = Some (fold_left fadd (exps E acts mx) fzero) /\
    (forall k id e, ids !! k = Some id -> exps E acts mx !! k = Some e ->
       exists d, slot_at (lv_nodes lv') id i = Some (mkSlot fone e d)) /\
    (forall k, Z.of_nat k ∉ ids -> lv_nodes lv' !! k = lv_nodes lv !! k) /\
    layer_same_but (eq i) lv lv'.
Proof. exact softmax_query. Qed.
Print Assumptions C52_softmax.

(** The second layer of the demonstration network is such a layer, and querying it with a first layer's output succeeds. *)
Definition net_anpl : list (list Pair) := [[]; [mkPair 0 fone; mkPair 2 fone]; []].
Definition net_p1 : nat := match m_la net_m !! nw_layers net_n with Some [_; p] => p | _ => 0%nat end.
Example C52_softmax_ex : exists arr lls nv ll lv in_ anpl' lp' m',
  lays_ok lls /\ net_rep net_m 1 arr lls nv /\ lls !! 1%nat = Some ll /\ nv_layers nv !! 1%nat = Some lv /\
  is_softmax (lv_type lv) = true /\
  layer_Query netE 1 (ll_ptr ll) net_anpl 1 0 [1] net_half net_m = Ok ((in_, anpl', lp'), m') /\
  length (active_of anpl' 1) = 2%nat.
Proof.
  assert (HA : match m_la net_m !! nw_layers net_n with Some [_; _] => true | _ => false end = true) by (vm_compute; reflexivity).
  assert (HT : match m_layer net_m !! net_p1 with Some l => is_softmax (l_type l) | _ => false end = true) by (vm_compute; reflexivity).
  assert (HQ : match layer_Query netE 1 net_p1 net_anpl 1 0 [1] net_half net_m with
               | Ok ((_, a, _), _) => length (active_of a 1) | Panic _ => 0%nat end = 2%nat) by (vm_compute; reflexivity).
  destruct (net_live []) as (m & nv & HO & L); [vm_compute; reflexivity|].
  revert HA HT HQ HO L. unfold net_p1. generalize net_n, net_m. intros n m0 HA HT HQ HO L. injection HO as ->.
  destruct L as (_ & _ & lls & HR & HL & _). pose proof (nr_arr _ _ _ _ _ HR) as HM. pose proof (nr_len _ _ _ _ _ HR) as HN.
  rewrite HM in HA, HT, HQ. destruct lls as [|l0 [|l1 [|]]]; try discriminate HA. cbn in HN, HT, HQ.
  destruct (nv_layers nv) as [|v0 [|v1 [|]]] eqn:EV; try discriminate HN.
  pose proof (nr_at _ _ _ _ _ HR 1%nat l1 v1 eq_refl (eq_trans (f_equal (lookup 1%nat) EV) eq_refl)) as HL1.
  rewrite (lr_layer _ _ _ _ HL1) in HT.
  destruct (layer_Query _ _ _ _ _ _ _ _ _) as [[[[in_ a] lp] m']|] eqn:EQ; [|discriminate HQ].
  exists (nw_layers n), [l0; l1], nv, l1, v1, in_, a, lp, m'. rewrite EV.
  split; [exact HL|]. split; [exact HR|]. split; [reflexivity|]. split; [reflexivity|]. split; [exact HT|]. split; [exact EQ|exact HQ].
Qed.

(** No exponent is positive. *)
Theorem C52_exponents : forall E c arr lls nv j ll lv anpl li i label sp m in_ anpl' lp' m' cur,
  lays_ok lls -> net_rep m c arr lls nv -> lls !! j = Some ll -> nv_layers nv !! j = Some lv ->
  is_softmax (lv_type lv) = true -> sget anpl li = Ok cur -> layer_representable lv cur ->
  layer_Query E c (ll_ptr ll) anpl li i label sp m = Ok ((in_, anpl', lp'), m') ->
  exists acts mx, activations lv cur (active_of anpl' li) acts /\ greatest acts mx /\
    anpl' !! Z.to_nat (li + 1) = Some (zip_with mkPair (active_of anpl' li) (exps E acts mx)) /\
    Forall (fun a => fltb fzero (fsub a mx) = false) acts.
Proof. exact softmax_exponents. Qed.
Print Assumptions C52_exponents.

(** * C54 PredictClass counts argmax hits *)
Theorem C54_count : forall E m c n nv exs cnt n' m',
  live E m c n nv -> network_PredictClass E c n exs m = Ok ((cnt, n'), m') ->
  exists classes, cnt = hits exs classes /\ 0 <= cnt <= Z.of_nat (length exs) /\
    Forall2 (fun ex cl => exists outs out,
      inference E (nv_layers nv) (nw_sparsity n) (length (nv_layers nv)) [] (features ex) outs /\
      last outs = Some out /\ predicted out cl) exs classes.
Proof. exact predict_count. Qed.
Print Assumptions C54_count.
(** After one round of training the demonstration network classifies one of the two examples; at once it predicts
    [classes] for them. *)
Example C54_count_ex :
  exists m nv, call_ops netE 1 net_n net_ops net_m = Ok (net_n, m) /\ live netE m 1 net_n nv /\
    exists cnt m', network_PredictClass netE 1 net_n net_exs m = Ok ((cnt, net_n), m') /\ cnt = 1.
Proof.
  destruct (net_live net_ops) as (m & nv & HO & L); [vm_compute; reflexivity|]. exists m, nv. split; [exact HO|]. split; [exact L|].
  assert (H : match call_ops netE 1 net_n net_ops net_m with
              | Ok (n, m) => match network_PredictClass netE 1 n net_exs m with Ok ((c, _), _) => c | Panic _ => -1 end
              | Panic _ => -1 end = 1) by (vm_compute; reflexivity).
  rewrite HO in H. destruct (network_PredictClass netE 1 net_n net_exs m) as [[[cnt n'] m']|] eqn:E; [|discriminate H].
  destruct (predict_unchanged _ _ _ _ _ _ _ _ _ L E) as [-> _]. exists cnt, m'. split; [reflexivity|exact H].
Qed.

(** * C55 PredictClass does not change the learned parameters *)
Theorem C55_unchanged : forall E m c n nv exs cnt n' m',
  live E m c n nv -> network_PredictClass E c n exs m = Ok ((cnt, n'), m') ->
  n' = n /\ exists nv', live E m' c n nv' /\ net_same_but (fun i => 0 <= i < Z.of_nat (length exs)) nv nv'.
Proof. exact predict_unchanged. Qed.
Print Assumptions C55_unchanged.
