(** Property C89: the nodes LayerMode4 adds at random are a fair sample (package layer). *)
From Verif.Spec Require Import FillSpec.
From Verif.Proofs Require Import LayerMore FillProofs.
From Verif.Properties Require Import LayerProps.
Local Open Scope Z_scope.

(** * C89 The nodes LayerMode4 adds at random are a fair sample of the nodes that are not candidates *)
(** Over the fallback orders, of which New and UpdateRandomNodes make each one equally often (C81), every set of as
    many other nodes as are needed to make 1000 is added equally often, whatever else the query depends on. *)
Theorem C89_sets : forall E cowId lp anpl li inputId label sp m la ns rn t cur retrieved os,
  layer_at m lp la ns rn t -> e_Mode E = LayerMode4 -> feqb sp fone = false -> 0 <= l_l la ->
  sget anpl li = Ok cur -> found E (l_hashers la) t cur retrieved -> NoDup label ->
  let N := Z.of_nat (length ns) in
  let cand := candidates (is_softmax (l_type la)) label retrieved in
  let query o := layer_Query E cowId lp anpl li inputId label sp (with_order m la o) in
  every_order N os -> (forall o, o ∈ os -> exists r, query o = Ok r) ->
  forall s, s ∈ combos (missing N cand) (others N cand) ->
  (length (filter (fun o => added cand li (query o) = Some s) os) * length (combos (missing N cand) (others N cand)) = length os)%nat.
Proof. intros *. exact (fun A B C D F G H I J => added_fair _ _ _ _ _ _ _ _ _ _ _ _ _ _ _ _ A B C D F G H I J). Qed.
Print Assumptions C89_sets.

(** So every single node that is not a candidate is added equally often: missing times out of the number of others. *)
Theorem C89_nodes : forall E cowId lp anpl li inputId label sp m la ns rn t cur retrieved os,
  layer_at m lp la ns rn t -> e_Mode E = LayerMode4 -> feqb sp fone = false -> 0 <= l_l la ->
  sget anpl li = Ok cur -> found E (l_hashers la) t cur retrieved -> NoDup label ->
  let N := Z.of_nat (length ns) in
  let cand := candidates (is_softmax (l_type la)) label retrieved in
  let query o := layer_Query E cowId lp anpl li inputId label sp (with_order m la o) in
  every_order N os -> (forall o, o ∈ os -> exists r, query o = Ok r) ->
  forall j, j ∈ others N cand ->
  (length (filter (fun o => j ∈ default [] (added cand li (query o))) os) * length (others N cand) = missing N cand * length os)%nat.
Proof. intros *. exact (fun A B C D F G H I J => added_node _ _ _ _ _ _ _ _ _ _ _ _ _ _ _ _ A B C D F G H I J). Qed.
Print Assumptions C89_nodes.

(** The six orders of a layer of three nodes: node 0 is retrieved, node 1 is the label, and node 2 is added by all. *)
Definition c89_orders : list (list Z) := [[0; 1; 2]; [0; 2; 1]; [1; 0; 2]; [1; 2; 0]; [2; 0; 1]; [2; 1; 0]].
Definition c89_run (m : mem) (o : list Z) :=
  added (candidates true [1] [[0]; [0]; [0]]) 0
    (layer_Query (demoE LayerMode4) 1 0 [demo_cur; []] 0 1 [1] half (with_order m (demo_la m) o)).
Example C89_ex :
  let m := demo LayerMode4 Softmax 3 3 in
  layer_at m 0 (demo_la m) (demo_ns m) (demo_rn m) (demo_t m) /\ length (demo_ns m) = 3%nat /\ l_l (demo_la m) = 3 /\
  found (demoE LayerMode4) (l_hashers (demo_la m)) (demo_t m) demo_cur [[0]; [0]; [0]] /\
  feqb half fone = false /\ NoDup [1] /\ NoDup c89_orders /\ Forall (fun o => o ≡ₚ seqZ 0 3) c89_orders /\ length c89_orders = fact 3 /\
  let cand := candidates true [1] [[0]; [0]; [0]] in
  map (c89_run m) c89_orders = replicate 6 (Some [2]) /\ combos (missing 3 cand) (others 3 cand) = [[2]].
Proof.
  cbv zeta. split; [constructor; vm_compute; reflexivity|].
  split; [vm_compute; reflexivity|]. split; [vm_compute; reflexivity|].
  split; [apply found_iff; vm_compute; reflexivity|]. split; [vm_compute; reflexivity|]. split; [apply NoDup_singleton|].
  split; [apply (bool_decide_unpack _); vm_compute; exact I|].
  split; [repeat constructor; apply NoDup_Permutation; try (apply (bool_decide_unpack _); vm_compute; exact I);
          intros x; rewrite elem_of_seqZ, !elem_of_cons, elem_of_nil; lia|].
  split; [reflexivity|]. split; vm_compute; reflexivity.
Qed.
(** All the orders of 1001 nodes can be listed.  A layer of that many nodes leaves out one node, and which one it is
    depends on the fallback order. *)
Definition c89_big : mem := demo LayerMode4 Softmax 1001 3.
Definition c89_left_out (r : res ((Z * list (list Pair) * nat) * mem)) : option (list Z) :=
  match r with
  | Ok ((_, anpl, _), _) => Some (filter (fun j => j ∉ active_of anpl 0) (seqZ 0 1001))
  | Panic _ => None
  end.
Definition c89_big_run (o : list Z) : option (list Z) :=
  c89_left_out (layer_Query (demoE LayerMode4) 1 0 [demo_cur; []] 0 1 [1] half (with_order c89_big (demo_la c89_big) o)).
Example C89_large_ex : (exists os, every_order 1001 os) /\
  c89_big_run (seqZ 0 1001) = Some [755] /\ c89_big_run (reverse (seqZ 0 1001)) = Some [245].
Proof.
  split; [apply every_order_exists; lia|].
  split; vm_compute; reflexivity.
Qed.
