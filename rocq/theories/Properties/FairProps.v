(** Properties C89 and C90 for a network that was made by New and used: its queries return. *)
From Verif.Spec Require Import FairSpec ShapeSpec.
From Verif.Proofs Require Import NetCalls FairProofs.
From Verif.Properties Require Import NetProps SafeProps.
Local Open Scope Z_scope.

(** * C89 The nodes LayerMode4 adds at random are a fair sample of the nodes that are not candidates *)
(** In a network of a well-formed configuration, whatever was done with it before: every query with fitting arguments
    returns for every fallback order, so nothing has to be assumed about the layer. *)
Theorem C89_network : forall E c num sizes types batch lr inputDim k l rp sparsity m n m1 calls n' m2 j lp la N P anpl cur i label sp,
  e_LoadWeight E = false -> e_Mode E = LayerMode4 -> well_formed E num sizes types batch inputDim k l rp sparsity ->
  network_New E c num sizes types batch lr inputDim k l rp sparsity m = Ok (n, m1) ->
  call_ops E c n calls m1 = Ok (n', m2) ->
  layer_of m2 n j lp -> m_layer m2 !! lp = Some la -> sizes !! j = Some N -> (inputDim :: sizes) !! j = Some P ->
  slices_for P anpl j cur -> labels_for N label -> 0 <= i < batch -> 0 < N -> feqb sp fone = false ->
  let query o := layer_Query E c lp anpl (Z.of_nat j) i label sp (with_order m2 la o) in
  exists t retrieved, m_lsh m2 !! l_tables la = Some t /\ found E (l_hashers la) t cur retrieved /\
    let cand := candidates (is_softmax (l_type la)) label retrieved in
    forall os, every_order N os ->
    (forall o, o ∈ os -> exists r, query o = Ok r) /\
    (forall s, s ∈ combos (missing N cand) (others N cand) ->
      (length (filter (fun o => added cand (Z.of_nat j) (query o) = Some s) os) * length (combos (missing N cand) (others N cand)) = length os)%nat) /\
    (forall x, x ∈ others N cand ->
      (length (filter (fun o => x ∈ default [] (added cand (Z.of_nat j) (query o))) os) * length (others N cand) = missing N cand * length os)%nat).
Proof. intros *. exact (fun H1 HM H2 H3 H4 H5 H6 H7 H8 H9 H10 H11 H12 H13 => network_fair _ _ _ _ _ _ _ _ _ _ _ _ _ _ _ _ _ _ _ _ _ _ _ _ H1 H2 H3 H4 H5 H6 H7 H8 _ _ _ _ _ H9 H10 H11 H12 H13 HM). Qed.
Print Assumptions C89_network.

(** * C90 The nodes LayerMode2 adds at random are a fair sample of the nodes that are not labels *)
(** The same for a sampled output layer: if the labels fit, every query returns as soon as the draws contain enough
    different other nodes. *)
Theorem C90_network : forall E c num sizes types batch lr inputDim k l rp sparsity m n m1 calls n' m2 j lp la N P anpl cur i label sp T,
  e_LoadWeight E = false -> e_Mode E = LayerMode2 -> well_formed_sampling E num sizes types batch inputDim k l rp sparsity ->
  network_New E c num sizes types batch lr inputDim k l rp sparsity m = Ok (n, m1) ->
  call_ops E c n calls m1 = Ok (n', m2) ->
  layer_of m2 n j lp -> m_layer m2 !! lp = Some la -> types !! j = Some Softmax -> sizes !! j = Some N -> (inputDim :: sizes) !! j = Some P ->
  slices_for P anpl j cur -> labels_for N label -> 0 <= i < batch -> 0 < N <= 325056 -> feqb sp fone = false ->
  let share := int_floor (fmul (f_of_Z N) sp) in
  Z.of_nat (length label) <= share -> (T <= e_fuel E)%nat ->
  let need := Z.to_nat (share - Z.of_nat (length label)) in
  let draws := filter (fun ds => (need <= length (firsts label ds))%nat) (all_draws N T) in
  let query ds := layer_Query E c lp anpl (Z.of_nat j) i label sp (with_draws m2 ds) in
  (forall ds, ds ∈ draws -> exists r, query ds = Ok r) /\
  (forall s, s ∈ arrangements need (others N label) ->
    (length (filter (fun ds => added label (Z.of_nat j) (query ds) = Some s) draws) * length (arrangements need (others N label)) = length draws)%nat) /\
  (forall x, x ∈ others N label ->
    (length (filter (fun ds => x ∈ default [] (added label (Z.of_nat j) (query ds))) draws) * length (others N label) = need * length draws)%nat).
Proof. intros *. exact (fun H1 HM H2 H3 H4 H5 H6 Hs H7 H8 H9 H10 H11 H12 H13 H14 H15 => network_random_fair _ _ _ _ _ _ _ _ _ _ _ _ _ _ _ _ _ _ _ _ _ _ _ _ H1 H2 H3 H4 H5 H6 H7 H8 _ _ _ _ _ H9 H10 H11 (proj1 H12) H13 _ HM Hs (proj2 H12) H15 H14). Qed.
Print Assumptions C90_network.

(** A network with three hidden and two output nodes after two training calls and a prediction. *)
Definition fair_cur : list Pair := [mkPair 0 fone; mkPair 2 net_half].
Lemma fair_slices : slices_for 3 [[]; fair_cur; []] 1 fair_cur.
Proof. split; [reflexivity|]. split; [reflexivity|]. split; [|cbn; lia]. intros p. unfold fair_cur. rewrite !elem_of_cons, elem_of_nil. intros [->|[->|[]]]; cbn; lia. Qed.
Lemma fair_layer E types batch lr inputDim k l rp sparsity m n m1 calls n' m2 : e_LoadWeight E = false -> dims_ok E 2 [3; 2] batch inputDim ->
  network_New E 1 2 [3; 2] types batch lr inputDim k l rp sparsity m = Ok (n, m1) -> call_ops E 1 n calls m1 = Ok (n', m2) ->
  exists lp la, layer_of m2 n 1 lp /\ m_layer m2 !! lp = Some la.
Proof.
  intros H1 H2 H3 H4. destruct (shape_calls _ _ _ _ _ _ _ _ _ _ _ _ _ _ _ _ _ _ H1 H2 H3 H4) as (-> & nv & (_ & _ & lls & R & _) & [HN _] & _).
  destruct (lookup_lt_is_Some_2 (nv_layers nv) 1) as [lv Hlv]; [lia|].
  destruct (lookup_lt_is_Some_2 lls 1) as [ll Hll]; [rewrite (nr_len _ _ _ _ _ R); lia|].
  exists (ll_ptr ll), (layer_rec 1 ll lv). split; [|apply (nr_at _ _ _ _ _ R _ _ _ Hll Hlv)].
  exists (map ll_ptr lls). split; [apply R|]. change (map ll_ptr lls) with (ll_ptr <$> lls). by rewrite list_lookup_fmap, Hll.
Qed.
Example C89_network_ex : exists n m1 m2 lp la,
  net_well netE /\ e_LoadWeight netE = false /\ e_Mode netE = LayerMode4 /\
  network_New netE 1 2 [3; 2] [ReLU; Softmax] 2 net_half 4 [1; 1] [2; 2] [2; 2] [fone; net_half; fone; fone] net0 = Ok (n, m1) /\
  call_ops netE 1 n net_ops m1 = Ok (n, m2) /\ layer_of m2 n 1 lp /\ m_layer m2 !! lp = Some la /\
  slices_for 3 [[]; fair_cur; []] 1 fair_cur /\ labels_for 2 [1] /\ feqb net_half fone = false /\
  (exists os, every_order 2 os /\ length os = 2%nat).
Proof.
  destruct C58_partial_ex as [W F].
  destruct (C58_partial netE 1 2 [3; 2] [ReLU; Softmax] 2 net_half 4 [1; 1] [2; 2] [2; 2] [fone; net_half; fone; fone] net0 eq_refl W) as (n & m1 & HN & HC).
  destruct (HC net_ops F) as [m2 H2]. destruct (fair_layer netE _ _ _ _ _ _ _ _ _ _ _ _ _ _ eq_refl net_dims HN H2) as (lp & la & L1 & L2).
  exists n, m1, m2, lp, la. split_and!; [exact W|reflexivity|reflexivity|exact HN|exact H2|exact L1|exact L2|exact fair_slices| |vm_compute; reflexivity|].
  - split; [apply NoDup_singleton|]. intros x ->%elem_of_list_singleton. lia.
  - exists [[0; 1]; [1; 0]]. split; [|reflexivity]. split; [apply (bool_decide_unpack _); vm_compute; exact I|]. intros o. rewrite !elem_of_cons, elem_of_nil.
    change (seqZ 0 2) with [0; 1]. split.
    + intros [->|[->|[]]]; [done|apply perm_swap].
    + intros Hp. pose proof (Permutation_length_2_inv (Permutation_sym Hp)) as [->| ->]; tauto.
Qed.
Lemma samp_dims : dims_ok sampE 2 [3; 2] 2 4.
Proof.
  split; [lia|]. split; [lia|]. intros i size prev Hi Hs Hp.
  destruct i as [|[|i]]; cbn in Hs, Hp; [..|lia]; injection Hs as <-; injection Hp as <-; (split; [lia|]; split; [lia|]; split; [lia|done]).
Qed.
Lemma fair_nolabels : labels_for 2 [].
Proof. split; [constructor|]. by intros x ?%elem_of_nil. Qed.
Lemma samp_fuel : (3 <= e_fuel sampE)%nat.
Proof. cbn. lia. Qed.
Example C90_network_ex : exists n m1 m2 lp la,
  well_formed_sampling sampE 2 [3; 2] [ReLU; Softmax] 2 4 [1; 1] [2; 2] [2; 2] [fone; net_half; fone; net_half] /\
  e_LoadWeight sampE = false /\ e_Mode sampE = LayerMode2 /\
  network_New sampE 1 2 [3; 2] [ReLU; Softmax] 2 net_half 4 [1; 1] [2; 2] [2; 2] [fone; net_half; fone; net_half] net0 = Ok (n, m1) /\
  call_ops sampE 1 n net_ops m1 = Ok (n, m2) /\ layer_of m2 n 1 lp /\ m_layer m2 !! lp = Some la /\
  slices_for 3 [[]; fair_cur; []] 1 fair_cur /\ labels_for 2 [] /\ feqb net_half fone = false /\
  int_floor (fmul (f_of_Z 2) net_half) = 1 /\ (3 <= e_fuel sampE)%nat /\
  length (filter (fun ds => (1 <= length (firsts [] ds))%nat) (all_draws 2 3)) = 8%nat /\ arrangements 1 (others 2 []) = [[0]; [1]].
Proof.
  destruct C58_sampling_ends_ex as (W & R & F & WS).
  destruct (C58_sampling_ends sampE 1 2 [3; 2] [ReLU; Softmax] 2 net_half 4 [1; 1] [2; 2] [2; 2] [fone; net_half; fone; net_half] net0 eq_refl W) as (n & m1 & HN & HC).
  destruct (HC net_ops F R) as [m2 H2]. destruct (fair_layer sampE _ _ _ _ _ _ _ _ _ _ _ _ _ _ eq_refl samp_dims HN H2) as (lp & la & L1 & L2).
  exists n, m1, m2, lp, la. split; [exact WS|]. split; [reflexivity|]. split; [reflexivity|]. split; [exact HN|]. split; [exact H2|]. split; [exact L1|].
  split; [exact L2|]. split; [exact fair_slices|]. split; [exact fair_nolabels|]. split; [vm_compute; reflexivity|].
  split; [vm_compute; reflexivity|]. split; [exact samp_fuel|]. split; vm_compute; reflexivity.
Qed.
