(** Property C58: well-formed networks never fail (package network). *)
From Verif.Spec Require Import LayerSpec SafeSpec.
From Verif.Proofs Require Import NetCalls NetSafe.
From Verif.Properties Require Import NetProps.
Local Open Scope Z_scope.

(** * C58 Training never panics on well-formed configurations *)
(** Missing for the full property: layers with sparsity below one need sparse random projections or densified WTA
    (see the refutations below for the two other hash functions), and a softmax layer with sparsity below one needs
    mode 1 or 4 (mode 3 is refuted below; mode 2, whose sampling loop need not end, is the subject of C58_sampling and
    C58_sampling_ends). *)
Theorem C58_partial : forall E c num sizes types batch lr inputDim k l rp sparsity m,
  e_LoadWeight E = false -> well_formed E num sizes types batch inputDim k l rp sparsity ->
  exists n m', network_New E c num sizes types batch lr inputDim k l rp sparsity m = Ok (n, m') /\
    forall os, Forall (call_fits num sizes types batch inputDim) os ->
    exists m'', call_ops E c n os m' = Ok (n, m'').
Proof. exact safe_calls. Qed.
Print Assumptions C58_partial.

Definition net_well E := well_formed E 2 [3; 2] [ReLU; Softmax] 2 4 [1; 1] [2; 2] [2; 2] [fone; net_half; fone; fone].
Example C58_partial_ex : net_well netE /\ Forall (call_fits 2 [3; 2] [ReLU; Softmax] 2 4) net_ops.
Proof.
  split.
  - split; [lia|]. split; [lia|]. split; [lia|]. intros j Hj.
    destruct j as [|[|j]]; [..|lia]; do 8 eexists; repeat (split; [reflexivity|]); (split; [lia|]); (split; [lia|]); (split; [lia|]); (split; [discriminate|]);
      (split; [first [reflexivity|intros ?; lia]|]); (split; [split; [lia|]; split; [lia|]; cbn; lia|]).
    + split; left; reflexivity.
    + split; [right; cbn; lia|left; reflexivity].
  - assert (HX : Forall (fun ex => features_fit 4 ex /\ labels_fit 2 [3; 2] [ReLU; Softmax] ex) net_exs).
    { assert (G : forall ps ls, Forall (fun p => 0 <= iv_index p < 4) ps -> Z.of_nat (length ps) <= 4 -> NoDup ls -> Forall (fun x => 0 <= x < 2) ls ->
        features_fit 4 (mkExample (Some ps) (Some ls)) /\ labels_fit 2 [3; 2] [ReLU; Softmax] (mkExample (Some ps) (Some ls))).
      { intros ps ls H1 H2 H3 H4. split; [done|]. split; [done|]. intros [|[|j]] size Hj Ht Hs; [discriminate Ht| |lia]. injection Hs as <-. exact H4. }
      apply Forall_cons. split; [|apply Forall_singleton].
      all: apply G; [repeat constructor; cbn; lia|cbn; lia|apply NoDup_singleton|apply Forall_singleton; lia]. }
    assert (HF : Forall (features_fit 4) net_exs) by (eapply Forall_impl; [exact HX|]; by intros ? [? _]).
    apply Forall_cons. split; [split; [cbn; lia|exact HX]|]. apply Forall_cons. split; [split; [cbn; lia|exact HF]|].
    apply Forall_singleton. split; [cbn; lia|exact HX].
Qed.

(** Mode 2 as well: the active nodes of a sparse softmax layer are the labels and then random nodes, drawn again
    and again until enough different ones are found.  If the labels fit, that loop is the only thing that can go
    wrong: a call returns, or the loop is still going on after [e_fuel E] rounds. *)
Theorem C58_sampling : forall E c num sizes types batch lr inputDim k l rp sparsity m,
  e_LoadWeight E = false -> well_formed_sampling E num sizes types batch inputDim k l rp sparsity ->
  exists n m', network_New E c num sizes types batch lr inputDim k l rp sparsity m = Ok (n, m') /\
    forall os, Forall (call_fits num sizes types batch inputDim) os -> Forall (call_room num sizes types sparsity) os ->
    call_ops E c n os m' = Panic PFuel \/ exists m'', call_ops E c n os m' = Ok (n, m'').
Proof. exact sampling_calls. Qed.
Print Assumptions C58_sampling.
(** With random numbers that leave no node out for ever, and no more active nodes than nodes, it does end. *)
Theorem C58_sampling_ends : forall E c num sizes types batch lr inputDim k l rp sparsity m,
  e_LoadWeight E = false -> well_formed_covered (rstream (m_rng m)) E num sizes types batch inputDim k l rp sparsity ->
  exists n m', network_New E c num sizes types batch lr inputDim k l rp sparsity m = Ok (n, m') /\
    forall os, Forall (call_fits num sizes types batch inputDim) os -> Forall (call_room num sizes types sparsity) os ->
    exists m'', call_ops E c n os m' = Ok (n, m'').
Proof. exact covered_calls. Qed.
Print Assumptions C58_sampling_ends.

Definition sampE : env := mkEnv true false SparseRandomProjectionHashFunction LayerMode2 (fun x => x) (fun x _ => x) (fun x => x) (fun _ x => x) 100.
Lemma net0_covers : covers (rstream (m_rng net0)) 2 2.
Proof.
  intros p v Hv. change (exists q, (p <= q < p + 2)%nat /\ (Z.of_nat q * 7919) mod 2 = v).
  destruct (decide ((Z.of_nat p * 7919) mod 2 = v)) as [Hp|Hp]; [exists p; split; [lia|done]|]. exists (S p). split; [lia|]. lia.
Qed.
Example C58_sampling_ends_ex :
  well_formed_covered (rstream (m_rng net0)) sampE 2 [3; 2] [ReLU; Softmax] 2 4 [1; 1] [2; 2] [2; 2] [fone; net_half; fone; net_half] /\
  Forall (call_room 2 [3; 2] [ReLU; Softmax] [fone; net_half; fone; net_half]) net_ops /\
  Forall (call_fits 2 [3; 2] [ReLU; Softmax] 2 4) net_ops /\
  well_formed_sampling sampE 2 [3; 2] [ReLU; Softmax] 2 4 [1; 1] [2; 2] [2; 2] [fone; net_half; fone; net_half].
Proof.
  assert (W : well_formed_covered (rstream (m_rng net0)) sampE 2 [3; 2] [ReLU; Softmax] 2 4 [1; 1] [2; 2] [2; 2] [fone; net_half; fone; net_half]).
  { split; [lia|]. split; [lia|]. split; [lia|]. intros j Hj.
    destruct j as [|[|j]]; [..|lia]; do 8 eexists; repeat (split; [reflexivity|]); (split; [lia|]); (split; [lia|]); (split; [lia|]); (split; [discriminate|]);
      (split; [first [reflexivity|intros ?; lia]|]); (split; [split; [lia|]; split; [lia|]; cbn; lia|]).
    - split; left; left; reflexivity.
    - assert (H : mode_covers (rstream (m_rng net0)) sampE Softmax 2 net_half).
      { right. split; [reflexivity|]. split; [lia|]. split; [vm_compute; split; discriminate|]. exists 2%nat. split; [exact net0_covers|]. cbn. lia. }
      split; exact H. }
  split; [exact W|]. split; [|split; [apply C58_partial_ex|]].
  - assert (HX : Forall (labels_room 2 [3; 2] [ReLU; Softmax] [fone; net_half; fone; net_half]) net_exs).
    { apply Forall_cons. split; [|apply Forall_singleton].
      all: intros [|[|j]] size sp Hj Ht Hs Hsp Hd; [discriminate Ht| |lia]; injection Hs as <-; injection Hsp as <-; vm_compute; discriminate. }
    repeat (apply Forall_cons; split; [done|]). apply Forall_nil. exact I.
  - destruct W as (? & ? & ? & W). split; [done|]. split; [done|]. split; [done|]. intros j Hj.
    destruct (W j Hj) as (a1 & a2 & a3 & a4 & a5 & a6 & a7 & a8 & W'). exists a1, a2, a3, a4, a5, a6, a7, a8.
    repeat match goal with H : _ /\ _ |- _ => destruct H end. split_and!; try assumption.
    all: match goal with H : mode_covers _ _ _ _ ?sp |- mode_samples _ _ _ ?sp => destruct H as [|(? & ? & ? & _)]; [by left|right; split; [done|]; split; [done|lia]] end.
Qed.

(** A network all of whose layers are dense needs no condition on the hash function, the mode or the tables
    beyond its having been built. *)
Theorem C58_dense : forall E c num sizes types batch lr inputDim k l rp sparsity m n m',
  e_LoadWeight E = false -> dims_ok E num sizes batch inputDim -> all_dense num types sparsity ->
  network_New E c num sizes types batch lr inputDim k l rp sparsity m = Ok (n, m') ->
  forall os, Forall (call_fits num sizes types batch inputDim) os -> exists m'', call_ops E c n os m' = Ok (n, m'').
Proof. exact dense_calls. Qed.
Print Assumptions C58_dense.

(** WTA hashing, mode 3, dense layers. *)
Definition wtaE (mode : LayerModeType) (h : HashFunctionType) : env :=
  mkEnv true false h mode (fun x => x) (fun x _ => x) (fun x => x) (fun _ x => x) 100.
Notation other_made mode h sparsity inputDim rp :=
  (network_New (wtaE mode h) 1 2 [3; 2] [ReLU; Softmax] 2 net_half inputDim [1; 1] [2; 2] rp sparsity net0).
Example C58_dense_ex :
  dims_ok (wtaE LayerMode3 WtaHashFunction) 2 [3; 2] 2 8 /\ all_dense 2 [ReLU; Softmax] [fone; fone; fone; fone] /\
  fine (other_made LayerMode3 WtaHashFunction [fone; fone; fone; fone] 8 [4; 4]) = true.
Proof.
  split; [|split].
  - split; [lia|]. split; [lia|]. intros i size prev Hi Hs Hp.
    destruct i as [|[|i]]; cbn in Hs, Hp; [..|lia]; injection Hs as <-; injection Hp as <-; (split; [lia|]; split; [lia|]; split; [lia|done]).
  - split; [lia|]. intros j Hj. destruct j as [|[|j]]; [..|lia]; do 3 eexists; repeat (split; [first [reflexivity|discriminate|intros ?; lia]|]); reflexivity.
  - vm_compute. reflexivity.
Qed.

(** The full property is false for the remaining settings: the same two-layer networks, well-formed but for the
    excluded setting, are built but fail in their first training call. *)
Definition fails_training (made : res (Network * mem)) (E : env) (exs : list Example_) : Prop :=
  exists n m p, made = Ok (n, m) /\ call_op E 1 n (OpTrain exs 0 false false) m = Panic p.
Lemma fails_intro made E exs :
  match made with Ok (n, m) => negb (fine (call_op E 1 n (OpTrain exs 0 false false) m)) | Panic _ => false end = true ->
  fails_training made E exs.
Proof.
  destruct made as [[n m]|q]; [|discriminate]. intros H. destruct (call_op E 1 n _ m) as [x|p] eqn:Ec; [discriminate H|]. exists n, m, p. split; [reflexivity|exact Ec].
Qed.
Definition ok_example (inputDim : Z) (ex : Example_) : Prop := features_fit inputDim ex /\ labels_fit 2 [3; 2] [ReLU; Softmax] ex.
Lemma ok_intro inputDim ps ls : Forall (fun p => 0 <= iv_index p < inputDim) ps -> Z.of_nat (length ps) <= inputDim -> NoDup ls -> Forall (fun x => 0 <= x < 2) ls ->
  ok_example inputDim (mkExample (Some ps) (Some ls)).
Proof.
  intros H1 H2 H3 H4. split; [split; assumption|]. split; [exact H3|]. intros [|[|j]] size Hj Ht Hs; [discriminate Ht| |lia]. injection Hs as <-. exact H4.
Qed.
(** Mode 3 with a sparse softmax layer. *)
Theorem C58_mode3_refuted :
  Forall (ok_example 4) net_exs /\
  fails_training (other_made LayerMode3 SparseRandomProjectionHashFunction [fone; net_half; fone; fone] 4 [2; 2])
    (wtaE LayerMode3 SparseRandomProjectionHashFunction) net_exs.
Proof.
  split; [|apply fails_intro; vm_compute; reflexivity].
  apply Forall_cons. split; [|apply Forall_singleton].
  all: apply ok_intro; [repeat constructor; cbn; lia|cbn; lia|apply NoDup_singleton|apply Forall_singleton; lia].
Qed.
Print Assumptions C58_mode3_refuted.
(** Mode 2 when more active nodes are asked for than the layer has: for every stream of random numbers and however
    long one waits, the training call does not return. *)
Theorem C58_mode2_refuted : forall E c num sizes types batch lr inputDim k l rp sparsity m n m' os n' m'' (j : nat) size sp ex exs iter rehash rebuild,
  e_LoadWeight E = false -> dims_ok E num sizes batch inputDim ->
  network_New E c num sizes types batch lr inputDim k l rp sparsity m = Ok (n, m') -> call_ops E c n os m' = Ok (n', m'') ->
  e_Mode E = LayerMode2 -> Z.of_nat j < num -> types !! j = Some Softmax -> sizes !! j = Some size -> sparsity !! j = Some sp ->
  feqb sp fone = false -> size < int_floor (fmul (f_of_Z size) sp) -> labels_fit num sizes types ex ->
  forall r, call_op E c n' (OpTrain (ex :: exs) iter rehash rebuild) m'' <> Ok r.
Proof. exact overfull_calls. Qed.
Print Assumptions C58_mode2_refuted.
Example C58_mode2_refuted_ex : let twice := f_of_Z 2 in
  fine (network_New sampE 1 2 [3; 2] [ReLU; Softmax] 2 net_half 4 [1; 1] [2; 2] [2; 2] [fone; twice; fone; fone] net0) = true /\
  feqb twice fone = false /\ 2 < int_floor (fmul (f_of_Z 2) twice) /\ Forall (ok_example 4) net_exs.
Proof. split; [vm_compute; reflexivity|]. split; [vm_compute; reflexivity|]. split; [vm_compute; reflexivity|]. apply C58_mode3_refuted. Qed.
(** WTA hashing with a sparse first layer: an example with two features of eight. *)
Definition two_of_eight : list Example_ := [mkExample (Some [mkPair 0 fone; mkPair 2 fone]) (Some [0])].
Theorem C58_wta_refuted :
  Forall (ok_example 8) two_of_eight /\
  fails_training (other_made LayerMode4 WtaHashFunction [net_half; fone; fone; fone] 8 [4; 4]) (wtaE LayerMode4 WtaHashFunction) two_of_eight.
Proof.
  split; [apply Forall_singleton; apply ok_intro; [repeat constructor; cbn; lia|cbn; lia|apply NoDup_singleton|apply Forall_singleton; lia]|].
  apply fails_intro. vm_compute. reflexivity.
Qed.
Print Assumptions C58_wta_refuted.
(** Densified minhash: New already fails on the first layer, which has fewer than thirty inputs. *)
Theorem C58_minhash_refuted : forall sparsity, exists p, other_made LayerMode4 DensifiedMinhashFunction sparsity 8 [4; 4] = Panic p.
Proof. intros [|sp sps]; eexists; vm_compute; reflexivity. Qed.
Print Assumptions C58_minhash_refuted.
(** Labels must be distinct: a repeated label makes node 0 of the softmax layer active twice. *)
Example C58_distinct_labels_needed :
  let ex := [mkExample (Some [mkPair 0 fone]) (Some [1; 1])] in
  fails_training (other_made LayerMode4 SparseRandomProjectionHashFunction [fone; net_half; fone; fone] 4 [2; 2]) netE ex.
Proof. apply fails_intro. vm_compute. reflexivity. Qed.
