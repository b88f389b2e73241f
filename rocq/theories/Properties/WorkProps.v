(** Property C92: the number of active nodes is bounded by the tables, not by the layer. *)
From Verif.Spec Require Import LayerSpec ShapeSpec WorkSpec.
From Verif.Proofs Require Import NetInfer WorkProofs.
From Verif.Properties Require Import NetProps LocalProps.
Local Open Scope Z_scope.

(** A query of a layer of a network in any state. *)
Theorem C92_query : forall E c num sizes types batch lr inputDim k l rp sparsity m n m' os n' m'' j lp anpl li i label sp in_ anpl' lp' m3 ty N L rj,
  e_LoadWeight E = false -> dims_ok E num sizes batch inputDim ->
  network_New E c num sizes types batch lr inputDim k l rp sparsity m = Ok (n, m') ->
  call_ops E c n os m' = Ok (n', m'') ->
  layer_of m'' n j lp -> layer_Query E c lp anpl li i label sp m'' = Ok ((in_, anpl', lp'), m3) ->
  types !! j = Some ty -> sizes !! j = Some N -> l !! j = Some L -> rp !! j = Some rj -> 0 <= rj <= 62 ->
  active_bound E (is_softmax ty) L N label sp (Z.of_nat (length (active_of anpl' li))).
Proof. exact query_bound. Qed.
Print Assumptions C92_query.

(** All the layers of a forward pass.  PredictClass makes one for every example (C54), and so does ProcessInput, possibly
    after reshuffling the fallback orders (C70). *)
Theorem C92_inference : forall E c num sizes types batch lr inputDim k l rp sparsity m n m' os n' m'',
  e_LoadWeight E = false -> dims_ok E num sizes batch inputDim ->
  network_New E c num sizes types batch lr inputDim k l rp sparsity m = Ok (n, m') ->
  call_ops E c n os m' = Ok (n', m'') ->
  exists nv, live E m'' c n nv /\ forall iter lvs sps off label feats outs,
    reshuffled iter (nv_layers nv) lvs -> inference E lvs sps off label feats outs ->
    forall j out ty N L rj sp, outs !! S j = Some out -> types !! j = Some ty -> sizes !! j = Some N -> l !! j = Some L ->
      rp !! j = Some rj -> 0 <= rj <= 62 -> sps !! (off + j)%nat = Some sp ->
      active_bound E (is_softmax ty) L N label sp (Z.of_nat (length out)).
Proof. exact inference_bound. Qed.
Print Assumptions C92_inference.
(** Without reshuffling, as in C54. *)
Example C92_same : forall iter lvs, reshuffled iter lvs lvs.
Proof. intros iter lvs. split; [|done]. apply Forall_Forall2_diag, Forall_forall. intros lv _. exists (lv_rand lv). split; [by destruct lv|done]. Qed.

(** With four tables LayerMode1 activates at most 170 nodes for an input without labels, with 50 tables LayerMode4 at most
    6400, however many nodes the layer has. *)
Example C92_numbers : forall E N a,
  (e_Mode E = LayerMode1 -> active_bound E true 4 N [] net_half a -> a <= 170) /\
  (e_Mode E = LayerMode4 -> active_bound E true 50 N [] net_half a -> a <= 6400).
Proof.
  intros E N a. assert (Hh : feqb net_half fone = false) by (vm_compute; reflexivity).
  split; intros HM; unfold active_bound; rewrite Hh, HM; cbn [length]; lia.
Qed.
Definition the_layer (m : mem) (n : Network) (j : nat) : option nat := match m_la m !! nw_layers n with Some ls => ls !! j | None => None end.
Definition active_count (r : res ((Z * list (list Pair) * nat) * mem)) : option nat :=
  match r with Ok ((_, anpl, _), _) => Some (length (active_of anpl 1)) | Panic _ => None end.
Definition loc_query (m : mem) (o : option nat) : option nat :=
  match o with Some lp => active_count (layer_Query locE 1 lp net_anpl 1 0 [3] net_half m) | None => None end.
(** In the new network the label and one other node of the output layer are active. *)
Example C92_ex : exists lp in_ anpl' lp' m3,
  network_New locE 1 2 [3; 4] [ReLU; Softmax] 2 net_half 4 [1; 1] [2; 4] [2; 2] [fone; net_half; fone; net_half] net0 = Ok (loc_n, loc_m) /\
  dims_ok locE 2 [3; 4] 2 4 /\ call_ops locE 1 loc_n [] loc_m = Ok (loc_n, loc_m) /\ layer_of loc_m loc_n 1 lp /\
  layer_Query locE 1 lp net_anpl 1 0 [3] net_half loc_m = Ok ((in_, anpl', lp'), m3) /\ length (active_of anpl' 1) = 2%nat.
Proof.
  assert (H : loc_query loc_m (the_layer loc_m loc_n 1) = Some 2%nat) by (vm_compute; reflexivity).
  pose proof loc_made_Ok as HM. pose proof loc_dims as HD. revert H HM. generalize loc_m, loc_n. intros m n H HM.
  destruct (the_layer m n 1) as [lp|] eqn:EL; [|discriminate H]. unfold loc_query in H.
  destruct (layer_Query locE 1 lp net_anpl 1 0 [3] net_half m) as [[[[in_ anpl'] lp'] m3]|] eqn:EQ; [|discriminate H]. cbn [active_count] in H.
  exists lp, in_, anpl', lp', m3. split; [exact HM|]. split; [exact HD|]. split; [reflexivity|]. split; [|split; [exact EQ|congruence]].
  unfold the_layer in EL. destruct (m_la m !! nw_layers n) as [ls|] eqn:E1; [|discriminate EL]. exists ls. split; [exact E1|exact EL].
Qed.
