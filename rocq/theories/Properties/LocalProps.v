(** Property C91: nodes that are not active have no influence on a prediction. *)
From Verif.Spec Require Import LayerSpec InferSpec LocalSpec.
From Verif.Proofs Require Import NetInfer LocalProofs.
From Verif.Properties Require Import NetProps.
Local Open Scope Z_scope.

(** Two networks that differ only in nodes which stayed idle, in weights of inputs that were not used and in what only
    training reads, give the same answer, and afterwards they still differ only there. *)
Theorem C91_idle : forall E D A m c n nv m2 c2 n2 nv2 exs cnt n' m' nv', e_Mode E <> LayerMode3 ->
  live E m c n nv -> live E m2 c2 n2 nv2 -> nw_sparsity n2 = nw_sparsity n -> differ_only D A nv nv2 ->
  network_PredictClass E c n exs m = Ok ((cnt, n'), m') -> live E m' c n nv' ->
  (forall j k, D j k -> idle nv' (length exs) j k) -> (forall j q, A j q -> unused nv' exs j q) ->
  exists m2' nv2', network_PredictClass E c2 n2 exs m2 = Ok ((cnt, n2), m2') /\ live E m2' c2 n2 nv2' /\ differ_only D A nv' nv2'.
Proof. exact predict_idle. Qed.
Print Assumptions C91_idle.

(** Such a weight can be set to anything beforehand. *)
Theorem C91_perturb : forall E m c n nv exs cnt n' m' j k np w d x m2, e_Mode E <> LayerMode3 -> live E m c n nv ->
  network_PredictClass E c n exs m = Ok ((cnt, n'), m') -> node_of m n j k np -> node_PurturbWeight c np w d m = Ok (x, m2) ->
  unread m' n exs j k w ->
  exists m2', network_PredictClass E c n exs m2 = Ok ((cnt, n), m2').
Proof. exact predict_perturbed. Qed.
Print Assumptions C91_perturb.

(** The network of the other examples with four classes, sampled with LayerMode1 also for predictions. *)
Definition locE : env :=
  mkEnv true false SparseRandomProjectionHashFunction LayerMode1 (fun x => x) (fun x _ => x) (fun x => x) (fun _ x => x) 100.
Notation loc_made :=
  (network_New locE 1 2 [3; 4] [ReLU; Softmax] 2 net_half 4 [1; 1] [2; 4] [2; 2] [fone; net_half; fone; net_half] net0).
Definition loc_n : Network := match loc_made with Ok (n, _) => n | Panic _ => mkNet 0 0 fzero 0 [] end.
Definition loc_m : mem := match loc_made with Ok (_, m) => m | Panic _ => net0 end.
Lemma loc_dims : dims_ok locE 2 [3; 4] 2 4.
Proof.
  split; [lia|]. split; [lia|]. intros i size prev Hi Hs Hp.
  destruct i as [|[|i]]; cbn in Hs, Hp; [..|lia]; injection Hs as <-; injection Hp as <-; (split; [lia|]; split; [lia|]; split; [lia|done]).
Qed.
Lemma loc_made_Ok : loc_made = Ok (loc_n, loc_m).
Proof.
  assert (H : fine loc_made = true) by (vm_compute; reflexivity).
  unfold loc_n, loc_m. revert H. generalize loc_made. intros [[n m]|]; [reflexivity|discriminate].
Qed.
Lemma loc_live : exists nv, live locE loc_m 1 loc_n nv.
Proof.
  pose proof loc_made_Ok as HM. revert HM. generalize loc_n, loc_m. intros n m HM.
  destruct (C64_live locE _ _ _ _ _ _ _ _ _ _ _ _ _ _ [] _ _ eq_refl loc_dims HM eq_refl) as [_ [nv L]]. by exists nv.
Qed.
(** Reading a node and its marks. *)
Definition the_node (m : mem) (n : Network) (j k : nat) : option nat :=
  match m_la m !! nw_layers n with Some ls => match ls !! j with Some lp => match m_layer m !! lp with Some L =>
  match m_na m !! l_nodes L with Some ns => ns !! k | None => None end | None => None end | None => None end | None => None end.
Lemma the_node_of m n j k np : the_node m n j k = Some np -> node_of m n j k np.
Proof.
  unfold the_node, node_of. destruct (m_la m !! nw_layers n) as [ls|] eqn:E1; [|done]. destruct (ls !! j) as [lp|] eqn:E2; [|done].
  destruct (m_layer m !! lp) as [L|] eqn:E3; [|done]. destruct (m_na m !! l_nodes L) as [ns|] eqn:E4; [|done]. intros H. by exists ls, lp, L, ns.
Qed.
Definition mark (m : mem) (t : nat) : bool := match m_tr m !! t with Some tr => feqb (tr_active tr) fone | None => false end.
Definition marks (m : mem) (o : option nat) : list bool :=
  match o with Some np => match m_node m !! np with Some nd => match telems m (n_train nd) with Some ts => map (mark m) ts | None => [true] end
    | None => [true] end | None => [true] end.
Lemma marks_idle m np b : forallb negb (marks m (Some np)) = true -> idle_at m np b.
Proof.
  intros H nd ts q t tr H1 H2 _ H3 H4. unfold marks in H. rewrite H1, H2 in H. rewrite forallb_forall in H.
  assert (HF : negb (mark m t) = true). { apply H, in_map. eapply elem_of_list_In, elem_of_list_lookup_2, H3. }
  unfold mark in HF. rewrite H4 in HF. by apply negb_true_iff.
Qed.
(** [Some (count, marks of the nodes of the output layer)] *)
Definition answer (r : res ((Z * Network) * mem)) : option (Z * list (list bool)) :=
  match r with Ok ((c, n), m) => Some (c, map (fun k => marks m (the_node m n 1 k)) [0; 1; 2; 3]%nat) | Panic _ => None end.
Definition count_after (r : res ((float64 * nat) * mem)) : option Z :=
  match r with Ok (_, m) => match network_PredictClass locE 1 loc_n net_exs m with Ok ((c, _), _) => Some c | Panic _ => None end | Panic _ => None end.
Definition poke (k : nat) (d : float64) : option Z :=
  match the_node loc_m loc_n 1 k with Some np => count_after (node_PurturbWeight 1 np 0 d loc_m) | None => None end.
Definition poked (k : nat) (d : float64) : bool :=
  match the_node loc_m loc_n 1 k with Some np => fine (node_PurturbWeight 1 np 0 d loc_m) | None => false end.
Lemma loc_facts nv (m : mem) (n : Network) : live locE m 1 n nv -> forall (r : res ((Z * Network) * mem)) o f (po : option nat),
  network_PredictClass locE 1 n net_exs m = r -> the_node m n 1 0 = po ->
  answer r = Some (1, [false; false] :: o) ->
  match po with Some np => fine (node_PurturbWeight 1 np 0 f m) | None => false end = true ->
  exists m' np np', network_PredictClass locE 1 n net_exs m = Ok ((1, n), m') /\ po = Some np /\
    node_of m n 1 0 np /\ node_of m' n 1 0 np' /\ idle_at m' np' (length net_exs).
Proof.
  intros L r o f po HR HP HA HF. destruct po as [np|]; [|done]. destruct r as [[[c n'] m']|]; [|done]. cbn [answer map] in HA.
  destruct (predict_unchanged _ _ _ _ _ _ _ _ _ L HR) as [-> _].
  assert (HA1 : c = 1) by congruence. assert (HA2 : marks m' (the_node m' n 1 0) = [false; false]) by congruence. clear HA. subst c.
  destruct (the_node m' n 1 0) as [np'|] eqn:EN; [|done]. exists m', np, np'. split; [done|]. split; [done|]. split; [by apply the_node_of|].
  split; [by apply the_node_of|]. apply marks_idle. by rewrite HA2.
Qed.
(** Nodes 1 and 2 are the active ones for both examples.  Changing node 1 changes the answer; changing the idle
    node 0 meets the hypotheses of the theorem. *)
Example C91_ex :
  answer (network_PredictClass locE 1 loc_n net_exs loc_m) = Some (1, [[false; false]; [true; true]; [true; true]; [false; false]]) /\
  poke 1 (f_of_Z (-100000)) = Some 0 /\
  exists nv m' np x m2, live locE loc_m 1 loc_n nv /\ e_Mode locE <> LayerMode3 /\
    network_PredictClass locE 1 loc_n net_exs loc_m = Ok ((1, loc_n), m') /\
    node_of loc_m loc_n 1 0 np /\ node_PurturbWeight 1 np 0 (f_of_Z 100000) loc_m = Ok (x, m2) /\ unread m' loc_n net_exs 1 0 0.
Proof.
  assert (HA : answer (network_PredictClass locE 1 loc_n net_exs loc_m) = Some (1, [[false; false]; [true; true]; [true; true]; [false; false]]))
    by (vm_compute; reflexivity).
  split; [exact HA|]. split; [vm_compute; reflexivity|].
  assert (HF : poked 0 (f_of_Z 100000) = true) by (vm_compute; reflexivity). unfold poked in HF.
  destruct loc_live as [nv L]. revert L HA HF. generalize loc_m, loc_n. intros m n L HA HF.
  destruct (loc_facts _ _ _ L _ _ _ _ eq_refl eq_refl HA HF) as (m' & np & np' & H1 & H2 & H3 & H4 & H5). rewrite H2 in HF.
  destruct (node_PurturbWeight 1 np 0 (f_of_Z 100000) m) as [[x m2]|] eqn:EP; [|discriminate HF].
  exists nv, m', np, x, m2. split; [exact L|]. split; [discriminate|]. split; [exact H1|]. split; [exact H3|]. split; [exact EP|].
  left. by exists np'.
Qed.
(** Feature 1 occurs in neither example. *)
Example C91_feature_ex (m' : mem) k : unread m' loc_n net_exs 0 k 1.
Proof.
  right. intros ex p Hex Hp. repeat (apply elem_of_cons in Hex as [->|Hex]; [repeat (apply elem_of_cons in Hp as [->|Hp]; [discriminate|]); by apply elem_of_nil in Hp|]).
  by apply elem_of_nil in Hex.
Qed.
(** The network before and after changing node 0 meets the hypotheses of [C91_idle]. *)
Example C91_idle_ex : exists nv m2 nv2 m' nv', live locE loc_m 1 loc_n nv /\ live locE m2 1 loc_n nv2 /\
  differ_only (fun j k => j = 1%nat /\ k = 0%nat) (fun _ _ => False) nv nv2 /\
  network_PredictClass locE 1 loc_n net_exs loc_m = Ok ((1, loc_n), m') /\ live locE m' 1 loc_n nv' /\ idle nv' (length net_exs) 1 0.
Proof.
  assert (HA : answer (network_PredictClass locE 1 loc_n net_exs loc_m) = Some (1, [[false; false]; [true; true]; [true; true]; [false; false]]))
    by (vm_compute; reflexivity).
  assert (HF : poked 0 (f_of_Z 100000) = true) by (vm_compute; reflexivity). unfold poked in HF.
  destruct loc_live as [nv L]. revert L HA HF. generalize loc_m, loc_n. intros m n L HA HF.
  destruct (loc_facts _ _ _ L _ _ _ _ eq_refl eq_refl HA HF) as (m' & np & np' & H1 & H2 & H3 & H4 & H5). rewrite H2 in HF.
  destruct (node_PurturbWeight 1 np 0 (f_of_Z 100000) m) as [[x m2]|] eqn:EP; [|discriminate HF].
  destruct (perturb_live _ _ _ _ _ _ _ _ _ _ _ _ L H3 EP) as (nv2 & L2 & HD & _). destruct (predict_unchanged _ _ _ _ _ _ _ _ _ L H1) as [_ (nv' & L' & _)].
  exists nv, m2, nv2, m', nv'. split; [exact L|]. split; [exact L2|]. split; [exact HD|]. split; [exact H1|]. split; [exact L'|]. eapply idle_read; [exact L'|exact H4|exact H5].
Qed.
