(** Property C90: the nodes LayerMode2 adds at random are a fair sample (package layer). *)
From Verif.Spec Require Import DrawSpec.
From Verif.Proofs Require Import DrawProofs.
From Verif.Properties Require Import LayerProps.
Local Open Scope Z_scope.

(** * C90 The nodes LayerMode2 adds at random are a fair sample of the nodes that are not labels *)
(** Among all the sequences of [T] draws that hold as many different nodes besides the labels as are needed, every
    choice of that many different nodes, in every order, is added equally often. *)
Theorem C90_sequences : forall E cowId lp anpl li inputId label sp m la ns T,
  m_layer m !! lp = Some la -> m_na m !! l_nodes la = Some ns ->
  e_Mode E = LayerMode2 -> feqb sp fone = false -> is_softmax (l_type la) = true ->
  let N := Z.of_nat (length ns) in
  let need := Z.to_nat (target_size ns sp - Z.of_nat (length label)) in
  let draws := filter (fun ds => (need <= length (firsts label ds))%nat) (all_draws N T) in
  let query ds := layer_Query E cowId lp anpl li inputId label sp (with_draws m ds) in
  (forall ds, ds ∈ draws -> exists r, query ds = Ok r) ->
  forall s, s ∈ arrangements need (others N label) ->
  (length (filter (fun ds => added label li (query ds) = Some s) draws) * length (arrangements need (others N label)) = length draws)%nat.
Proof. exact random_fair. Qed.
Print Assumptions C90_sequences.

(** So every single node that is not a label is added equally often. *)
Theorem C90_nodes : forall E cowId lp anpl li inputId label sp m la ns T,
  m_layer m !! lp = Some la -> m_na m !! l_nodes la = Some ns ->
  e_Mode E = LayerMode2 -> feqb sp fone = false -> is_softmax (l_type la) = true ->
  let N := Z.of_nat (length ns) in
  let need := Z.to_nat (target_size ns sp - Z.of_nat (length label)) in
  let draws := filter (fun ds => (need <= length (firsts label ds))%nat) (all_draws N T) in
  let query ds := layer_Query E cowId lp anpl li inputId label sp (with_draws m ds) in
  (forall ds, ds ∈ draws -> exists r, query ds = Ok r) ->
  forall j, j ∈ others N label ->
  (length (filter (fun ds => j ∈ default [] (added label li (query ds))) draws) * length (others N label) = need * length draws)%nat.
Proof. exact random_node. Qed.
Print Assumptions C90_nodes.

(** Two of four nodes, node 1 being the label, with two draws: of the 16 sequences all but 1, 1 hold another node,
    and 5 of the 15 add each of the other three nodes. *)
Definition c90_mem : mem := demo LayerMode2 Softmax 4 2.
Definition c90_run (m : mem) (ds : list Z) :=
  added [1] 0 (layer_Query (demoE LayerMode2) 1 0 [demo_cur; []] 0 1 [1] LayerProps.half (with_draws m ds)).
Definition c90_draws : list (list Z) := filter (fun ds => (1 <= length (firsts [1%Z] ds))%nat) (all_draws 4 2).
Example C90_ex :
  m_layer c90_mem !! 0%nat = Some (demo_la c90_mem) /\ m_na c90_mem !! l_nodes (demo_la c90_mem) = Some (demo_ns c90_mem) /\
  target_size (demo_ns c90_mem) LayerProps.half = 2 /\ is_softmax (l_type (demo_la c90_mem)) = true /\
  others 4 [1] = [0; 2; 3] /\ arrangements 1 (others 4 [1]) = [[0]; [2]; [3]] /\ length c90_draws = 15%nat /\
  forallb (fun ds => match c90_run c90_mem ds with Some _ => true | None => false end) c90_draws = true /\
  map (fun s => length (filter (fun ds => c90_run c90_mem ds = Some s) c90_draws)) [[0]; [2]; [3]] = [5%nat; 5%nat; 5%nat].
Proof.
  split; [vm_compute; reflexivity|]. split; [vm_compute; reflexivity|]. split; [vm_compute; reflexivity|].
  split; [vm_compute; reflexivity|]. split; [vm_compute; reflexivity|]. split; [vm_compute; reflexivity|].
  split; [vm_compute; reflexivity|]. split; vm_compute; reflexivity.
Qed.
